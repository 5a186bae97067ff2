(** Creation and deletion of RMT encoders *)
From Verif Require Import Prelude Rmt SpecRmt RmtProofs2 RmtLife SpecRmtLife.

(** Names not handed out yet are not alive *)
Definition sound (h : heap) : Prop := forall p, In p (h_live h) -> (p < h_next h)%nat.

Lemma remove_other : forall p (l : list nat), ~ In p l -> remove Nat.eq_dec p l = l.
Proof. intros p l H. apply notin_remove. exact H. Qed.

Lemma free_top : forall n p l, ~ In p l -> h_free p (Heap n (p :: l) false) = Heap n l false.
Proof.
  intros n p l H. unfold h_free. cbn [h_live existsb]. rewrite Nat.eqb_refl. cbn [orb h_next h_bad remove].
  destruct (Nat.eq_dec p p); [|congruence]. rewrite remove_other by exact H. reflexivity.
Qed.

Lemma free_second : forall n p q l, p <> q -> ~ In p l -> h_free p (Heap n (q :: p :: l) false) = Heap n (q :: l) false.
Proof.
  intros n p q l Hpq H. unfold h_free. cbn [h_live existsb]. rewrite Nat.eqb_refl, orb_true_r. cbn [h_next h_bad remove].
  destruct (Nat.eq_dec p q); [congruence|]. destruct (Nat.eq_dec p p); [|congruence].
  rewrite remove_other by exact H. reflexivity.
Qed.

(** Creation: either three new blocks or the heap as it was *)
Lemma new_spec : forall k c n l, (forall p, In p l -> (p < n)%nat) ->
  exists r d h, rmt_new k c (Heap n l false) = (r, d, h) /\ creation k c r /\
    (r = 0 /\ d = Some (Encoder n (Some (S n)) (Some (S (S n)))) /\ h = Heap (3 + n) (S (S n) :: S n :: n :: l) false \/
     r <> 0 /\ d = None /\ h_live h = l /\ h_bad h = false /\ (n <= h_next h)%nat).
Proof.
  intros k c n l Hn. unfold rmt_new.
  destruct (k_config k && k_ret k && rmt_config_ok c) eqn:Ea; cbn [negb].
  2: { do 3 eexists. split; [reflexivity|]. split.
       - left. split; [|reflexivity]. intros (H1 & H2 & H3). apply config_check in H3.
         rewrite H1, H2, H3 in Ea. discriminate.
       - right. cbn. repeat split; try discriminate; try lia. }
  apply andb_prop in Ea. destruct Ea as [Ea E3]. apply andb_prop in Ea. destruct Ea as [E1 E2].
  apply config_check in E3.
  destruct (k_calloc k) eqn:Ek; cbn [negb].
  2: { do 3 eexists. split; [reflexivity|]. split.
       - right. split; [auto|]. left. split; [exact Ek|reflexivity].
       - right. cbn. repeat split; try discriminate; try lia. }
  assert (N0 : ~ In n l) by (intro H; specialize (Hn _ H); lia).
  assert (N1 : ~ In (S n) (n :: l)) by (intros [H|H]; [lia|specialize (Hn _ H); lia]).
  cbn [h_alloc h_next h_live h_bad]. unfold sub_new.
  destruct (k_copy k =? ESP_OK) eqn:Ec; cbn [negb h_alloc h_next h_live h_bad].
  2: { apply Z.eqb_neq in Ec. unfold new_err. cbn [e_copy e_bytes e_self]. rewrite free_top by exact N0.
       do 3 eexists. split; [reflexivity|]. split.
       - right. split; [auto|]. right. left. auto.
       - right. cbn. repeat split; auto. }
  apply Z.eqb_eq in Ec.
  destruct (k_bytes k =? ESP_OK) eqn:Eb; cbn [negb h_alloc h_next h_live h_bad].
  2: { apply Z.eqb_neq in Eb. unfold new_err. cbn [e_copy e_bytes e_self sub_del].
       rewrite free_top by exact N1. rewrite free_top by exact N0.
       do 3 eexists. split; [reflexivity|]. split.
       - right. split; [auto|]. right. right. auto.
       - right. cbn. repeat split; auto. }
  apply Z.eqb_eq in Eb.
  do 3 eexists. split; [reflexivity|]. split.
  - right. split; [auto|]. right. right. auto.
  - left. auto.
Qed.

(** Freeing three living blocks *)
Lemma free_alive : forall p h, h_bad h = false -> In p (h_live h) ->
  h_free p h = Heap (h_next h) (remove Nat.eq_dec p (h_live h)) false.
Proof.
  intros p h Hb Hp. unfold h_free. replace (existsb (Nat.eqb p) (h_live h)) with true; [rewrite Hb; reflexivity|].
  symmetry. apply existsb_exists. exists p. split; [exact Hp|apply Nat.eqb_refl].
Qed.

Lemma NoDup_remove_all : forall p (l : list nat), NoDup l -> NoDup (remove Nat.eq_dec p l).
Proof.
  intros p l H. induction H as [|x l Hx H IH]; [constructor|]. cbn [remove].
  destruct (Nat.eq_dec p x); [exact IH|]. constructor; [|exact IH].
  intro Hin. apply in_remove in Hin. tauto.
Qed.

Definition fine (s : list encoder * heap) : Prop := accounted (fst s) (snd s) /\ sound (snd s).

Lemma Forall2_split : forall (A B : Type) (R : A -> B -> Prop) l n a m, Forall2 R l m -> nth_error l n = Some a ->
  exists m1 b m2, m = m1 ++ b :: m2 /\ R a b /\ Forall2 R (firstn n l) m1 /\ Forall2 R (skipn (S n) l) m2.
Proof.
  intros A B R l. induction l as [|x l IH]; intros n a m H Hn; [destruct n; discriminate|].
  inversion H as [|? y ? m' Hxy Hl]; subst. destruct n as [|n].
  - cbn in Hn. injection Hn as ->. exists [], y, m'. cbn. auto.
  - cbn [nth_error] in Hn. destruct (IH n a m' Hl Hn) as (m1 & b & m2 & -> & Hab & H1 & H2).
    exists (y :: m1), b, m2. split; [reflexivity|]. split; [exact Hab|]. split; [constructor; auto|exact H2].
Qed.

Lemma call_spec : forall x s r s', fine s -> do_call x s = (r, s') ->
  fine s' /\
  match x with
  | Create k c => creation k c r /\
      exists d, fst s' = fst s ++ d /\ (r = 0 <-> length d = 1%nat) /\ (r <> 0 <-> d = [] /\ h_live (snd s') = h_live (snd s))
  | Delete n => r = 0 /\ fst s' = firstn n (fst s) ++ skipn (S n) (fst s)
  end.
Proof.
  intros x [ds h] r s' [[Hb (pss & HF & HN & HL & HNL)] HS] Hx. cbn [fst snd] in *. destruct x as [k c|n].
  - cbn [do_call] in Hx. destruct h as [n l b]. cbn in Hb. subst b.
    destruct (new_spec k c n l HS) as (r0 & d & h & He & Hr & Hd). rewrite He in Hx.
    assert (r0 = r) by congruence. subst r0.
    assert (Hs' : s' = (ds ++ match d with Some d => [d] | None => [] end, h)) by congruence. subst s'. clear Hx He.
    cbn [fst snd].
    destruct Hd as [(-> & -> & ->)|(Hne & -> & Hl & Hb & Hnx)].
    + split.
      * split; cbn [fst snd].
        -- split; [reflexivity|]. exists (pss ++ [[n; S n; S (S n)]]).
           assert (Hout : forall p, In p (concat pss) -> (p < n)%nat) by (intros p Hp; apply HS; apply HL; exact Hp).
           split; [|split; [|split]].
           ++ apply Forall2_app; [exact HF|]. constructor; [|constructor]. exists (S n), (S (S n)). auto.
           ++ rewrite concat_app. cbn [concat List.app]. rewrite ?app_nil_r.
              assert (Hd3 : NoDup [n; S n; S (S n)]) by (repeat constructor; cbn; lia).
              assert (Hdis : forall p, In p [n; S n; S (S n)] -> ~ In p (concat pss)).
              { intros p Hp Hq. apply Hout in Hq. cbn in Hp. lia. }
              clear - HN Hd3 Hdis. revert Hd3 Hdis. generalize [n; S n; S (S n)] as b. intros b Hb Hd.
              induction (concat pss) as [|x a IH]; [exact Hb|]. inversion HN as [|? ? Hx Ha]; subst.
              cbn [List.app]. constructor.
              ** intro Hi. apply in_app_or in Hi. destruct Hi as [Hi|Hi]; [exact (Hx Hi)|].
                 exact (Hd _ Hi (or_introl eq_refl)).
              ** apply IH; [exact Ha|]. intros p Hp Hq. exact (Hd _ Hp (or_intror Hq)).
           ++ intros p. rewrite concat_app, in_app_iff. cbn [concat List.app h_live In]. rewrite HL. tauto.
           ++ cbn [h_live]. cbn [h_live] in HNL. constructor; [|constructor; [|constructor; [|exact HNL]]]; cbn [In]; intro Hi;
                repeat match goal with H : _ \/ _ |- _ => destruct H as [H|H] end; try lia;
                apply HS in Hi; cbn in Hi; lia.
        -- intros p Hp. cbn [h_live h_next] in *. cbn [In] in Hp.
           destruct Hp as [Hp|[Hp|[Hp|Hp]]]; try lia. apply HS in Hp. cbn in Hp. lia.
      * split; [exact Hr|]. eexists. split; [reflexivity|]. split; [cbn; tauto|]. split; [congruence|].
        intros [H _]. discriminate.
    + split.
      * split; cbn [fst snd].
        -- split; [exact Hb|]. exists pss. rewrite app_nil_r, Hl. cbn [h_live] in *. auto.
        -- intros p Hp. rewrite Hl in Hp. apply HS in Hp. cbn in Hp. lia.
      * split; [exact Hr|]. exists []. rewrite Hl. cbn. split; [reflexivity|]. split; [|tauto].
        split; [congruence|discriminate].
  - cbn [do_call] in Hx. destruct (nth_error ds n) as [d|] eqn:En.
    + unfold rmt_del in Hx. injection Hx as <- <-. cbn [fst snd].
      destruct (Forall2_split _ _ _ _ _ _ _ HF En) as (m1 & ps & m2 & -> & Hown & H1 & H2).
      destruct Hown as (copy & bytes & Hc & Hby & ->).
      rewrite Hc, Hby. cbn [sub_del].
      rewrite concat_app in HN, HL. cbn [concat List.app] in HN, HL.
      assert (Hin : forall p, In p [e_self d; copy; bytes] -> In p (h_live h)).
      { intros p Hp. apply HL. apply in_or_app. right. cbn in *. tauto. }
      assert (Hdist : e_self d <> copy /\ e_self d <> bytes /\ copy <> bytes).
      { pose proof (NoDup_remove_2 _ _ _ HN) as N1. pose proof (NoDup_remove_1 _ _ _ HN) as M1.
        pose proof (NoDup_remove_2 _ _ _ M1) as N2. rewrite !in_app_iff in *. cbn [In] in *.
        repeat split; intro; subst; tauto. }
      destruct Hdist as (D1 & D2 & D3).
      assert (Hc_in := Hin copy ltac:(cbn; tauto)). assert (Hb_in := Hin bytes ltac:(cbn; tauto)).
      assert (Hs_in := Hin (e_self d) ltac:(cbn; tauto)).
      rewrite (free_alive copy h Hb Hc_in).
      rewrite (free_alive bytes) by (cbn [h_bad h_live]; auto; apply in_in_remove; auto).
      cbn [h_next h_live].
      rewrite (free_alive (e_self d)) by (cbn [h_bad h_live]; auto; apply in_in_remove; auto; apply in_in_remove; auto).
      cbn [h_next h_live].
      split; [|auto].
      assert (Hrem : forall p, In p (remove Nat.eq_dec (e_self d) (remove Nat.eq_dec bytes (remove Nat.eq_dec copy (h_live h))))
                 <-> In p (h_live h) /\ p <> e_self d /\ p <> bytes /\ p <> copy).
      { intros p. split.
        - intro Hp. apply in_remove in Hp. destruct Hp as [Hp P1]. apply in_remove in Hp. destruct Hp as [Hp P2].
          apply in_remove in Hp. destruct Hp as [Hp P3]. auto.
        - intros (Hp & P1 & P2 & P3). repeat (apply in_in_remove; auto). }
      split; cbn [fst snd].
      * split; [reflexivity|]. exists (m1 ++ m2). split; [apply Forall2_app; auto|].
        assert (HN2 : NoDup (concat m1 ++ concat m2)).
        { apply NoDup_remove_1 in HN. apply NoDup_remove_1 in HN. apply NoDup_remove_1 in HN. exact HN. }
        split; [rewrite concat_app; exact HN2|]. split.
        -- intros p. cbn [h_live]. rewrite Hrem, HL, concat_app, !in_app_iff. cbn [In].
           assert (Hno : forall q, In q [e_self d; copy; bytes] -> ~ In q (concat m1 ++ concat m2)).
           { intros q Hq. cbn [In] in Hq.
             pose proof (NoDup_remove_2 _ _ _ HN) as N1. pose proof (NoDup_remove_1 _ _ _ HN) as M1.
             pose proof (NoDup_remove_2 _ _ _ M1) as N2. pose proof (NoDup_remove_1 _ _ _ M1) as M2.
             pose proof (NoDup_remove_2 _ _ _ M2) as N3.
             rewrite !in_app_iff in *. cbn [In] in *. intro. destruct Hq as [<- |[<- |[<- |[]]]]; tauto. }
           pose proof (Hno (e_self d) ltac:(cbn; tauto)) as Q1. pose proof (Hno copy ltac:(cbn; tauto)) as Q2.
           pose proof (Hno bytes ltac:(cbn; tauto)) as Q3. rewrite in_app_iff in Q1, Q2, Q3.
           split.
           ++ intros ([Hp|[Hp|[Hp|[Hp|Hp]]]] & P1 & P2 & P3); auto; exfalso; congruence.
           ++ intros Hp. split; [tauto|]. repeat split; intro; subst; tauto.
        -- cbn [h_live]. apply NoDup_remove_all, NoDup_remove_all, NoDup_remove_all. exact HNL.
      * intros p Hp. cbn [h_live h_next] in *. apply Hrem in Hp. apply HS. tauto.
    + injection Hx as <- <-. cbn [fst snd]. split.
      * split; cbn [fst snd]; [|exact HS]. split; [exact Hb|]. exists pss. auto.
      * split; [reflexivity|]. apply nth_error_None in En.
        rewrite firstn_all2 by lia. rewrite skipn_all2 by lia. rewrite app_nil_r. reflexivity.
Qed.

Lemma fine0 : fine ([], Heap 0 [] false).
Proof.
  split; cbn [fst snd].
  - split; [reflexivity|]. exists []. cbn. split; [constructor|]. split; [constructor|]. split; [tauto|constructor].
  - intros p [].
Qed.

Lemma calls_fine : forall xs s rs s', fine s -> do_calls xs s = (rs, s') -> fine s'.
Proof.
  induction xs as [|x xs IH]; intros s rs s' Hf H; cbn [do_calls] in H.
  - injection H as <- <-. exact Hf.
  - destruct (do_call x s) as [r s1] eqn:E1. destruct (do_calls xs s1) as [rs1 s2] eqn:E2.
    injection H as <- <-. apply (IH _ _ _ (proj1 (call_spec _ _ _ _ Hf E1)) E2).
Qed.

Theorem memory_accounted : forall xs rs ds h, do_calls xs ([], Heap 0 [] false) = (rs, (ds, h)) ->
  accounted ds h /\ length (h_live h) = (3 * length ds)%nat.
Proof.
  intros xs rs ds h H. destruct (calls_fine _ _ _ _ fine0 H) as [Ha _]. cbn [fst snd] in Ha. split; [exact Ha|].
  destruct Ha as (_ & pss & HF & HN & HL & HNL).
  assert (Hl : length (concat pss) = (3 * length ds)%nat).
  { clear - HF. induction HF as [|d ps ds pss (copy & bytes & _ & _ & ->) HF IH]; [reflexivity|].
    cbn [concat]. rewrite app_length, IH. cbn [length]. lia. }
  rewrite <- Hl. apply Nat.le_antisymm; apply NoDup_incl_length; auto; intros p Hp; apply HL; exact Hp.
Qed.

Theorem creation_result : forall xs rs ds h k c r ds' h',
  do_calls xs ([], Heap 0 [] false) = (rs, (ds, h)) -> do_call (Create k c) (ds, h) = (r, (ds', h')) ->
  creation k c r /\
  (r = 0 -> exists d, ds' = ds ++ [d]) /\ (r <> 0 -> ds' = ds /\ h_live h' = h_live h).
Proof.
  intros xs rs ds h k c r ds' h' H Hx.
  pose proof (calls_fine _ _ _ _ fine0 H) as Hf.
  destruct (call_spec _ _ _ _ Hf Hx) as (_ & Hr & d & Hd & H1 & H2). cbn [fst snd] in *.
  split; [exact Hr|]. split.
  - intros H0. apply H1 in H0. destruct d as [|d [|]]; cbn in H0; try lia. eauto.
  - intros H0. apply H2 in H0. destruct H0 as [-> H0]. rewrite app_nil_r in Hd. auto.
Qed.

Theorem deletion_result : forall xs rs ds h n r ds' h',
  do_calls xs ([], Heap 0 [] false) = (rs, (ds, h)) -> do_call (Delete n) (ds, h) = (r, (ds', h')) ->
  r = 0 /\ ds' = firstn n ds ++ skipn (S n) ds /\ accounted ds' h'.
Proof.
  intros xs rs ds h n r ds' h' H Hx.
  pose proof (calls_fine _ _ _ _ fine0 H) as Hf.
  destruct (call_spec _ _ _ _ Hf Hx) as (Hf' & Hr & Hd). cbn [fst snd] in *.
  split; [exact Hr|]. split; [exact Hd|]. exact (proj1 Hf').
Qed.
