(** Storing an assigned address: interrupted executions. *)
From Verif Require Import Prelude Address Instruction Checksum Datagram RxState Rx ZBits RxLogic RxInv SpecCodec SpecRx RxBitProofs RxBitProofs4
  SpecExec ExecProofs SpecConf SpecCv SpecLogon SaneProofs LogonProofs2 Preempt PreemptData SpecPreempt PreemptProofs PreemptProofs2 PreemptProofs4 StaleProofs
  OfferProofs PreemptLoop SpecLoop LoopProofs SpecStored StoredProofs StoredProofs2.

(** Assertions about the decoder and the calls made so far *)
Definition assertion : Type := rx -> list event -> Prop.
Definition anything : assertion := fun _ _ => True.
(** The flag is up, or what was told and what was written fit together *)
Definition inv (C : address * Z * Z -> list (option Z) -> Prop) : assertion := fun r past =>
  logon_selected (r_logon r) = true /\ (logon_store (r_logon r) = true \/ C (told_by r) (cells past)).

Section Goes.
  Context {I : Type} (E : Env I).
  Implicit Types s : st I.

  Definition stable (R : assertion) : Prop := forall os s s' es past, Forall handler os -> run E os s = Ok (tt, s', es) -> bytes (rxs s) ->
    R (rxs s) past -> R (rxs s') (past ++ es).
  Definition goes {A} (R : assertion) (P : prog (I := I) A) (Q : assertion) : Prop := forall w s past o s' es, Forall (Forall handler) w ->
    preempted E P w s = Ok (o, s', es) -> bytes (rxs s) -> R (rxs s) past -> bytes (rxs s') /\ Q (rxs s') (past ++ es).
  Lemma goes_Done : forall R A (a : A), goes R (Done a) R.
  Proof. intros R A a w s past o s' es Hw H Hb HR. inversion H; subst. rewrite app_nil_r. auto. Qed.
  Lemma goes_bind : forall R S Q A C (P : prog A) (k : A -> prog C), goes R P S -> (forall a, goes S (k a) Q) -> goes R (pbind P k) Q.
  Proof.
    intros R S Q A C P k HP Hk w s past o s' es Hw H Hb HR. apply preempted_pbind in H.
    destruct H as (a & sn1 & sv1 & s1 & e1 & c & sn2 & sv2 & e2 & H1 & H2 & -> & ->).
    destruct (HP _ _ _ _ _ _ Hw H1 Hb HR) as [B1 R1]. rewrite app_assoc. exact (Hk a _ _ _ _ _ _ (handlers_skipn _ _ Hw) H2 B1 R1).
  Qed.
  Lemma goes_Act : forall (R Q : assertion) B (S : B -> assertion) A (m : M B) (k : B -> prog A), stable R ->
    (forall s b s' es past, bytes (rxs s) -> m s = Ok (b, s', es) -> R (rxs s) past -> bytes (rxs s') /\ S b (rxs s') (past ++ es)) ->
    (forall b, (exists s s' es, bytes (rxs s) /\ m s = Ok (b, s', es)) -> goes (S b) (k b) Q) -> goes R (Act B m k) Q.
  Proof.
    intros R Q B S A m k HR Hm Hk w s past o s' es Hw H Hb Hs. apply preempted_inv in H.
    destruct H as (s1 & e1 & b & s2 & e2 & a & sn & sv & e3 & H1 & H2 & H3 & _ & ->).
    pose proof (HR _ _ _ _ past (handlers_hd _ Hw) H1 Hb Hs) as R1.
    destruct (handlers_run E (told_by (rxs s)) _ _ _ _ (handlers_hd _ Hw) H1 Hb) as (B1 & _).
    destruct (Hm _ _ _ _ _ B1 H2 R1) as [B2 R2].
    replace (past ++ e1 ++ e2 ++ e3) with (((past ++ e1) ++ e2) ++ e3) by (rewrite <- !app_assoc; reflexivity).
    refine (Hk b _ _ _ _ _ _ _ (handlers_tl _ Hw) H3 B2 R2). exists s1, s2, e2. auto.
  Qed.
  Lemma goes_act : forall (R Q : assertion) B (S : B -> assertion) A (m : M B) (k : B -> prog A), stable R ->
    (forall s b s' es past, bytes (rxs s) -> m s = Ok (b, s', es) -> R (rxs s) past -> bytes (rxs s') /\ S b (rxs s') (past ++ es)) ->
    (forall b, goes (S b) (k b) Q) -> goes R (pbind (act m) k) Q.
  Proof. intros R Q B S A m k HR Hm Hk. exact (goes_Act R Q B S A m k HR Hm (fun b _ => Hk b)). Qed.

  Lemma stable_any : stable anything. Proof. intros os s s' es past _ _ _ _. exact Logic.I. Qed.
  Lemma stable_inv : forall C, stable (inv C).
  Proof.
    intros C os s s' es past Hh H Hb [H1 H2]. destruct (handlers_run E (told_by (rxs s)) _ _ _ _ Hh H Hb) as (_ & F & Hm).
    unfold inv. rewrite (cells_mild past es Hm).
    destruct (F (conj H1 (or_intror eq_refl))) as [F1 F2]. split; [exact F1|].
    destruct H2 as [H2|H2].
    - left. assert (G : forall v, firm v (rxs s')).
      { intro v. destruct (handlers_run E v _ _ _ _ Hh H Hb) as (_ & G & _). apply G. split; [exact H1|left; exact H2]. }
      destruct (proj2 (G (logon (r_addrs (rxs s)), 0, 0))) as [K|K]; [exact K|]. destruct (proj2 (G (logon (r_addrs (rxs s)), 0, 1))) as [K'|K']; [exact K'|]. congruence.
    - destruct F2 as [F2|F2]; [left; exact F2|right; rewrite F2; exact H2].
  Qed.
  Lemma inv_memo : forall C r r' past es, memo r' = memo r -> Forall mild es -> inv C r past -> inv C r' (past ++ es).
  Proof.
    intros C r r' past es H Hm [H1 H2]. unfold memo in H. injection H as A1 A2 A3 A4 A5. unfold inv, told_by in *. rewrite A1, A2, A3, A4, A5, (cells_mild _ _ Hm). auto.
  Qed.
  Lemma goes_tame : forall C A (P : prog A), tame P -> goes (inv C) P (inv C).
  Proof.
    intros C A P. induction P as [a|B m k IH]; intros H; [apply goes_Done|]. destruct H as [Hm Hk].
    apply (goes_Act _ _ _ (fun _ => inv C)); [apply stable_inv| |intros b Hb; exact (IH b (Hk b Hb))].
    intros s b s' es past Hb H HR. destruct (Hm _ _ _ _ Hb H) as (B1 & B2 & B3). split; [exact B1|]. exact (inv_memo _ _ _ _ _ B2 B3 HR).
  Qed.
  Lemma goes_calm : forall A (P : prog A), tame P -> goes anything P anything.
  Proof.
    intros A P. induction P as [a|B m k IH]; intros H; [apply goes_Done|]. destruct H as [Hm Hk].
    apply (goes_Act _ _ _ (fun _ => anything)); [apply stable_any| |intros b Hb; exact (IH b (Hk b Hb))].
    intros s b s' es past Hb H HR. destruct (Hm _ _ _ _ Hb H) as (B1 & B2 & B3). split; [exact B1|exact Logic.I].
  Qed.
  Lemma goes_acts : forall A (P : prog A), acts (fun B m => keeps stuff m) P -> goes anything P anything.
  Proof.
    intros A P. induction P as [a|B m k IH]; intros H; [apply goes_Done|]. destruct H as [Hm Hk].
    apply (goes_Act _ _ _ (fun _ => anything)); [apply stable_any| |intros b Hb; exact (IH b (Hk b))].
    intros s b s' es past Hb H HR. split; [exact (bytes_keeps _ _ Hm _ _ _ _ H Hb)|exact Logic.I].
  Qed.

  (** Writing one of the CVs *)
  Lemma cells_write : forall a v s b s' es past, writeCv E a v s = Ok (b, s', es) ->
    rxs s' = rxs s /\ cells (past ++ es) = map (fun c => if c =? a then Some v else last_stored c past) logon_cvs.
  Proof.
    intros a v s b s' es past H. assert (exists u, es = [EWriteCv a v u] /\ rxs s' = rxs s) as (u & -> & K).
    { unfold writeCv in H. cbn in H. destruct (e_writeCv E (app s) a v) eqn:?; inversion H; subst. eexists. split; reflexivity. }
    split; [exact K|]. unfold cells. apply map_ext. intro c. unfold last_stored, accesses. rewrite flat_map_app, fold_left_app. cbn.
    rewrite Z.eqb_sym. reflexivity.
  Qed.
  Definition want (t : address * Z * Z) : list (option Z) :=
    let '(l, c, d) := t in [Some (u8 (Z.shiftr c 8)); Some (u8 c); Some d; Some (u8 (Z.shiftr (aval l) 8)); Some (u8 (aval l))].
  Definition upto (n : nat) : address * Z * Z -> list (option Z) -> Prop := fun t cs => firstn n cs = firstn n (want t).
  Lemma goes_pre : forall A (R R' Q : assertion) (P : prog A), (forall r past, R' r past -> R r past) -> goes R P Q -> goes R' P Q.
  Proof. intros A R R' Q P H HP w s past o s' es Hw Hp Hb HR. exact (HP w s past o s' es Hw Hp Hb (H _ _ HR)). Qed.
  Lemma goes_store : forall n a (f : rx -> Z) (h : address * Z * Z -> Z) (g : Z -> Z) A (k : prog A) Q, (n < 5)%nat -> a = 65296 + Z.of_nat n ->
    (forall r, f r = h (told_by r)) -> (forall t, nth_error (want t) n = Some (Some (g (h t)))) -> goes (inv (upto (S n))) k Q ->
    goes (inv (upto n)) (pbind (rd f) (fun c => pbind (act (writeCv E a (g c))) (fun _ => k))) Q.
  Proof.
    intros n a f h g A k Q Hn Ha Hf Hw Hk.
    apply (goes_act _ _ _ (fun v => inv (fun t cs => upto n t cs /\ v = h t))); [apply stable_inv| |intro v].
    { intros s v s' es past Hb H [H1 H2]. inversion H; subst. rewrite app_nil_r. split; [exact Hb|]. split; [exact H1|]. rewrite Hf. destruct H2; auto. }
    apply (goes_act _ _ _ (fun _ => inv (upto (S n)))); [apply stable_inv| |intro; exact Hk].
    intros s b s' es past Hb H [H1 H2]. destruct (cells_write _ _ _ _ _ _ past H) as [Er Ec]. rewrite Er. split; [exact Hb|]. split; [exact H1|].
    destruct H2 as [H2|[H2 Hv]]; [left; exact H2|right]. rewrite Ec. unfold upto in *. subst v a. specialize (Hw (told_by (rxs s))). clear - Hn H2 Hw.
    destruct (told_by (rxs s)) as [[l c] d]. unfold cells, logon_cvs in *. unfold want in *.
    do 5 (destruct n as [|n]; [cbn -[u8 Z.shiftr last_stored] in *; congruence|]). lia.
  Qed.

  Lemma goes_logonStore : goes (inv (fun _ _ => False)) (logonStoreP E) (inv (upto 5)).
  Proof.
    unfold logonStoreP. apply (goes_act _ _ _ (fun b r past => inv (fun _ _ => False) r past /\ b = true)); [apply stable_inv| |intros []].
    { intros s b s' es past Hb H HR. inversion H; subst. rewrite app_nil_r. split; [exact Hb|]. split; [exact HR|]. destruct HR as [_ [H1|[]]]. exact H1. }
    2:{ intros w s past o s' es _ _ _ [_ H]. discriminate. }
    cbn [negb]. apply (goes_pre _ (inv (fun _ _ => False))); [intros r past [H _]; exact H|].
    apply (goes_act _ _ _ (fun _ => inv (upto 0))); [apply stable_inv| |intros _].
    { intros s b s' es past Hb H [H1 _]. inversion H; subst. split; [exact Hb|]. split; [exact H1|right; reflexivity]. }
    do 2 (apply (goes_bind _ (inv (upto 0))); [apply goes_tame, tame_act, soft_gets|intro]).
    apply (goes_bind _ (inv (upto 0))); [apply goes_tame, tame_when|intro].
    { do 1 (apply tame_bind; [apply tame_act, soft_gets|intro]). apply tame_bind; [apply tame_act, soft_write; unfold spares; lia|intro].
      apply tame_bind; [apply tame_act, soft_gets|intro]. apply tame_bind; [apply tame_act, soft_write; unfold spares; lia|intro].
      apply tame_bind; [apply tame_act, soft_writeBit; unfold spares; lia|intro]. exact Logic.I. }
    do 2 (apply (goes_bind _ (inv (upto 0))); [apply goes_tame, tame_act, soft_write; unfold spares; lia|intro]).
    apply (goes_bind _ (inv (upto 0))); [apply goes_tame, tame_act, soft_wr; reflexivity|intro].
    apply (goes_store 0 65296 _ (fun t => snd (fst t)) (fun c => u8 (Z.shiftr c 8))); [lia|reflexivity|reflexivity|intros [[l c] d]; reflexivity|].
    apply (goes_store 1 65297 _ (fun t => snd (fst t)) u8); [lia|reflexivity|reflexivity|intros [[l c] d]; reflexivity|].
    apply (goes_bind _ (inv (upto 2))); [apply goes_tame, tame_act, soft_wr; reflexivity|intro].
    apply (goes_store 2 65298 _ snd (fun c => c)); [lia|reflexivity|reflexivity|intros [[l c] d]; reflexivity|].
    apply (goes_store 3 65299 _ (fun t => aval (fst (fst t))) (fun c => u8 (Z.shiftr c 8))); [lia|reflexivity|reflexivity|intros [[l c] d]; reflexivity|].
    apply (goes_store 4 65300 _ (fun t => aval (fst (fst t))) u8); [lia|reflexivity|reflexivity|intros [[l c] d]; reflexivity|].
    apply goes_Done.
  Qed.
  Lemma goes_handle : goes (inv (fun _ _ => False)) (handleP E) (inv (upto 5)).
  Proof.
    unfold handleP. apply (goes_bind _ (inv (fun _ _ => False))); [apply goes_tame, tame_adr|intros _].
    apply (goes_bind _ (inv (upto 5))); [apply goes_logonStore|intros _]. apply goes_tame. exact (tame_rest E).
  Qed.

  Lemma stored_either : forall w s o s' es, Forall (Forall handler) w -> bytes (rxs s) -> is_selected s = true -> to_store s = true ->
    preempted E (executeP E) w s = Ok (o, s', es) -> worked_on o <> None -> is_selected s' = true /\ (to_store s' = true \/ as_told es s').
  Proof.
    intros w s o s' es Hw Hb Hsel Hst H Ho. unfold executeP in H. unfold rd at 1, act at 1 in H. cbn [pbind] in H. apply preempted_inv in H.
    destruct H as (s1 & e1 & b & s2 & e2 & a & sn & sv & e3 & H1 & H2 & H3 & -> & ->).
    assert (R0 : inv (fun _ _ => False) (rxs s) []) by (split; [exact Hsel|left; exact Hst]).
    pose proof (stable_inv _ _ _ _ _ _ (handlers_hd _ Hw) H1 Hb R0) as R1.
    destruct (handlers_run E (told_by (rxs s)) _ _ _ _ (handlers_hd _ Hw) H1 Hb) as (B1 & _).
    inversion H2; subst; clear H2. destruct (f_packet_end (r_fsm (rxs s2))).
    { inversion H3; subst. exfalso. apply Ho. reflexivity. }
    unfold rd at 1, act at 1 in H3. cbn [pbind] in H3. apply preempted_inv in H3.
    destruct H3 as (s3 & e4 & b & s4 & e5 & a' & sn' & sv' & e6 & H4 & H5 & H6 & H7 & ->). injection H7 as -> -> ->.
    pose proof (handlers_tl _ Hw) as Hw1.
    pose proof (stable_inv _ _ _ _ _ _ (handlers_hd _ Hw1) H4 B1 R1) as R2.
    destruct (handlers_run E (told_by (rxs s)) _ _ _ _ (handlers_hd _ Hw1) H4 B1) as (B2 & _).
    inversion H5; subst; clear H5. destruct (length (r_deque (rxs s4)) =? 0)%nat.
    { inversion H6; subst. exfalso. apply Ho. reflexivity. }
    assert (G : goes (inv (fun _ _ => False)) (pbind (handleP E) (fun b => pbind (act popFront) (fun _ => Done b))) (inv (upto 5))).
    { apply (goes_bind _ (inv (upto 5))); [apply goes_handle|intro]. apply goes_tame. apply tame_bind; [apply tame_act, soft_pop|intro; exact Logic.I]. }
    destruct (G _ _ _ _ _ _ (handlers_tl _ Hw1) H6 B2 R2) as [_ [R3 R4]]. split; [exact R3|].
    destruct R4 as [R4|R4]; [left; exact R4|right]. unfold as_told, upto, want, told_by in *. cbn [new_station fst snd] in *.
    cbn [List.app] in *. rewrite <- !app_assoc in R4. cbn [List.app] in R4. cbn [firstn] in R4. unfold cells, logon_cvs in R4. cbn [map] in R4.
    unfold logon_cvs. cbn [map]. rewrite R4. unfold u8. rewrite !Z.shiftr_div_pow2 by lia. reflexivity.
  Qed.
End Goes.
