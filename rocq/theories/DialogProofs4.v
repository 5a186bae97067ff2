(** The answer that waits for channel 2: claims *)
From Verif Require Import Prelude Address Instruction Datagram ZBits SpecCodec RxState Rx CodecProofs CodecProofs2 RxLogic SpecRx RxBitProofs RxBitProofs4
  SpecExec ExecProofs SpecConf ConfProofs ConfProofs2 SpecCv CvProofs CvProofs2 SpecLogon SpecBidi BidiProofs3 BidiProofs4 SpecStation StationProofs2 SpecLayout
  LayoutProofs LayoutProofs2 LayoutProofs3 LayoutProofs4 SpecDialog DialogProofs DialogProofs2 DialogProofs3.
Local Ltac Zify.zify_post_hook ::= Z.div_mod_to_equations.

(** ** Answers are true *)

Definition long_form (p : list Z) : bool := (0xE0 <=? hd 0 (body_of p)) && (hd 0 (body_of p) <? 0xF0).
Definition truthful (v : view) (w : option Z) : Prop :=
  match w with
  | None => True
  | Some r => long_form (v_last v) = true ->
      exists x, In x (asks (v_last v)) /\ r = content x (v_cvs v) /\ (is_writing x = true -> (2 <= v_times v)%nat)
  end.

Lemma asks_one : forall p, asks p = [] \/ exists x, asks p = [x].
Proof.
  intros p. unfold asks. destruct (_ && _); [|auto]. unfold request. cbv zeta.
  destruct (hd 0 (body_of p) / 4 mod 4) as [|[[|[]|]|[|[]|]|]|]; eauto.
Qed.

Lemma truthful_kept : forall v v' w, v_cvs v' = v_cvs v -> (v_last v' = v_last v -> (v_times v <= v_times v')%nat) ->
  truthful v w -> truthful v' (if list_eq_dec Z.eq_dec (v_last v') (v_last v) then w else None).
Proof.
  intros v v' w H1 H2 H. destruct (list_eq_dec Z.eq_dec (v_last v') (v_last v)) as [e|e]; [|exact Logic.I].
  unfold truthful in *. destruct w as [r|]; [|exact Logic.I]. rewrite e, H1. intros Hl. destruct (H Hl) as (x & Hx & Hr & Ht).
  exists x. split; [exact Hx|]. split; [exact Hr|]. intros Hw. specialize (Ht Hw). specialize (H2 e). lia.
Qed.

Lemma cvs_after_app : forall a b c, cvs_after (a ++ b) c = cvs_after b (cvs_after a c).
Proof. induction a as [|[e|x] a IH]; intros b c; cbn [List.app cvs_after]; auto. Qed.
Lemma honest_all : forall xs, honest (perform_all xs).
Proof.
  induction xs as [|x xs IH]; intros v; [split; reflexivity|]. rewrite next_all. unfold next. cbn [fst snd].
  destruct (IH (fst (perform x v))) as [H1 H2]. destruct (honest_perform x v) as [H3 H4].
  rewrite cvs_after_app, H1, H2, H3, H4. auto.
Qed.
Lemma cvs_tells : forall es c, cvs_after (map Told es) c = c.
Proof. induction es as [|e es IH]; intros c; [reflexivity|]. cbn [map cvs_after]. apply IH. Qed.
Lemma unwritten : forall xs c, ~ writes xs -> cvs_after xs c = c.
Proof.
  induction xs as [|[e|x] xs IH]; intros c H; cbn [cvs_after]; [reflexivity| |].
  - apply IH. intros (y & Hy & Hw). apply H. exists y. split; [right; exact Hy|exact Hw].
  - rewrite IH by (intros (y & Hy & Hw); apply H; exists y; split; [right; exact Hy|exact Hw]).
    destruct x; try reflexivity; exfalso; apply H; eexists; (split; [left; reflexivity|reflexivity]).
Qed.
Lemma cvs_service : forall p v, v_cvs (fst (service p v)) = cvs_after (snd (service p v)) (v_cvs v).
Proof.
  intros p v. unfold service. destruct (nth 0 p 0 =? 0); [reflexivity|]. destruct (negb _); [reflexivity|].
  destruct (length p =? 3)%nat.
  - destruct (nth 0 p 0 mod 8 =? 5); [|apply honest_perform]. destruct (bit_of (nth 0 p 0) 3); [reflexivity|]. cbn [fst snd]. destruct (_ =? _); reflexivity.
  - destruct (length p =? 4)%nat; [|reflexivity]. cbv zeta. exact (proj1 (honest_all _ (count p v))).
Qed.
Lemma last_service : forall p v, (v_last (fst (service p v)) = v_last v /\ v_times (fst (service p v)) = v_times v) \/
  (v_last (fst (service p v)) = p /\ v_times (fst (service p v)) = v_times (count p v)).
Proof.
  assert (Tp : forall x v, v_times (fst (perform x v)) = v_times v) by (intros x v; unfold perform; destruct (permitted _ x); reflexivity).
  assert (Ta : forall xs v, v_times (fst (perform_all xs v)) = v_times v).
  { induction xs as [|x xs IH]; intros v; [reflexivity|]. rewrite next_all. unfold next. cbn [fst]. rewrite IH. apply Tp. }
  intros p v. unfold service. destruct (nth 0 p 0 =? 0); [auto|]. destruct (negb _); [auto|].
  destruct (length p =? 3)%nat.
  - left. destruct (nth 0 p 0 mod 8 =? 5); [destruct (bit_of (nth 0 p 0) 3); auto|]. rewrite last_perform, Tp. auto.
  - destruct (length p =? 4)%nat; [|auto]. cbv zeta. right. rewrite last_all, Ta. auto.
Qed.
Lemma times_count : forall p v, p = v_last v -> v_times (count p v) = S (v_times v).
Proof. intros p v ->. unfold count. cbn [v_times]. destruct (list_eq_dec Z.eq_dec (v_last v) (v_last v)); congruence. Qed.

Lemma truthful_obey : forall ew p v w, truthful v w -> by_cv_packet ew p v -> truthful (fst (obey ew p v)) (reply ew p v w).
Proof.
  intros ew p v w Ht Hby. unfold by_cv_packet in Hby. unfold reply. unfold obey in *. destruct (v_service v) eqn:Hsv.
  { rewrite answer_service by exact Hsv. apply truthful_kept; [| |exact Ht].
    - rewrite cvs_service. apply unwritten. intros X. destruct (Hby X). discriminate.
    - intros e. destruct (last_service p v) as [[_ ->]|[X ->]]; [lia|]. rewrite times_count by congruence. lia. }
  unfold operations in *. destruct (recipient (v_cvs v) p) as [n|]; [|cbn [fst snd answer]; rewrite kept_self; exact Ht].
  destruct (body_of p) as [|b0 t] eqn:Eb; [cbn [fst snd answer]; rewrite kept_self; exact Ht|].
  destruct (Z.ltb_spec b0 0x10).
  { destruct ((n =? 0) && (b0 =? 0)); cbn [fst snd answer with_service v_last]; rewrite kept_self; exact Ht. }
  destruct (Z.ltb_spec b0 0x20).
  { cbn [hd] in Hby. unfold perform in *. destruct (permitted _ _); [|cbn [fst snd answer]; rewrite kept_self; exact Ht].
    exfalso. cbn [snd] in Hby. assert (writes (Access (Store (19 - 1) (hd 0 t mod 128 + 128 * Z.b2z (Z.odd b0 || (128 <=? hd 0 t)))) ::
      (if v_service v && agrees (Store (19 - 1) (hd 0 t mod 128 + 128 * Z.b2z (Z.odd b0 || (128 <=? hd 0 t))))
        (after (Store (19 - 1) (hd 0 t mod 128 + 128 * Z.b2z (Z.odd b0 || (128 <=? hd 0 t)))) (v_cvs v)) then [Told EServiceAck] else []))) as X.
    { eexists. split; [left; reflexivity|reflexivity]. }
    destruct (Hby X). lia. }
  destruct (Z.ltb_spec b0 0xE0).
  { cbn [fst snd]. rewrite answer_tells, kept_self. exact Ht. }
  destruct (negb (n =? 0) && _); [cbn [fst snd answer]; rewrite kept_self; exact Ht|]. clear Hby. cbv zeta.
  rewrite last_all. change (v_last (count p v)) with p.
  destruct (Z.ltb_spec b0 0xF0).
  2: { assert (long_form p = false) as Hs by (unfold long_form; rewrite Eb; cbn [hd]; lia).
       unfold truthful. rewrite last_all. change (v_last (count p v)) with p. rewrite Hs.
       match goal with |- match ?x with _ => _ end => destruct x end; [discriminate|exact Logic.I]. }
  assert (Hk : truthful (count p v) (if list_eq_dec Z.eq_dec p (v_last v) then w else None)).
  { apply (truthful_kept v (count p v) w); [reflexivity| |exact Ht]. cbn [count v_last]. intros e. rewrite times_count by exact e. lia. }
  rewrite (answer_ext _ v (count p v)) by reflexivity.
  assert (Ha : asks p = request b0 (nth 0 t 0) (nth 1 t 0)).
  { unfold asks. rewrite Eb. cbn [hd nth]. replace ((224 <=? b0) && (b0 <? 240)) with true by lia. reflexivity. }
  rewrite <- Ha. destruct (asks_one p) as [Hn|(x & Hx)]; [rewrite Hn; exact Hk|]. rewrite Hx. cbn [flat_map]. rewrite app_nil_r.
  set (v1 := count p v) in *.
  assert (Hd : due (v_times v1) x = [] \/ exists y, due (v_times v1) x = [y] /\ (forall c, content y c = content x c) /\
    (is_writing x = true -> (2 <= v_times v1)%nat) /\ ((is_writing x = true -> (3 <= v_times v1)%nat) -> forall c, after y c = c)).
  { destruct x; cbn [due].
    - right. eexists. split; [reflexivity|]. repeat split; discriminate.
    - destruct (v_times v1) as [|[|[|j]]]; auto; right; eexists; (split; [reflexivity|]);
        (split; [reflexivity|]); (split; [intros; lia|]); intros K c; try reflexivity. specialize (K eq_refl). lia.
    - right. eexists. split; [reflexivity|]. repeat split; discriminate.
    - destruct (v_times v1) as [|[|[|j]]]; auto; right; eexists; (split; [reflexivity|]);
        (split; [reflexivity|]); (split; [intros; lia|]); intros K c; try reflexivity. specialize (K eq_refl). lia. }
  destruct Hd as [->|(y & -> & Hc & Hw2 & Hw3)]; [exact Hk|]. rewrite one_all. unfold perform.
  destruct (permitted _ y); [|exact Hk]. change (v_service v1) with (v_service v). rewrite Hsv. cbn [andb negb fst snd answer].
  change (v_service v1) with (v_service v). rewrite Hsv. cbn [negb andb].
  destruct (data_channel (v_cvs v1)) eqn:Ech.
  - intros _. exists x. cbn [with_cvs v_last v_cvs v_times]. change (v_last v1) with p. rewrite Hx. split; [left; reflexivity|]. split; [apply Hc|exact Hw2].
  - destruct (list_eq_dec Z.eq_dec p (v_last v)) as [e|e]; [|exact Logic.I]. destruct w as [r|]; [|exact Logic.I].
    unfold truthful in Ht |- *. cbn [with_cvs v_last v_cvs v_times]. change (v_last v1) with p. intros Hl.
    rewrite <- e in Ht. destruct (Ht Hl) as (x' & Hx' & Hr & Hw). rewrite Hx in Hx'. destruct Hx' as [<-|[]].
    exists x. rewrite Hx. split; [left; reflexivity|]. split; [|exact Hw2]. rewrite Hw3; [exact Hr|].
    intros W1. specialize (Hw W1). subst v1. rewrite times_count by exact e. lia.
Qed.

Lemma only_app : forall ew a b v, only_by_cv_packets ew (a ++ b) v -> only_by_cv_packets ew a v /\ only_by_cv_packets ew b (fst (obey_all ew a v)).
Proof.
  intros ew. induction a as [|p a IH]; intros b v H; [split; [exact Logic.I|exact H]|]. cbn [List.app only_by_cv_packets obey_all] in *.
  destruct H as [H1 H2]. destruct (IH _ _ H2) as [H3 H4]. split; [split; assumption|].
  destruct (obey ew p v) as [v1 x]. cbn [fst] in *. destruct (obey_all ew a v1). exact H4.
Qed.
Lemma truthful_converse : forall ew os v, only_by_cv_packets ew (SpecRx.taken os listener0) v ->
  let x := converse ew os listener0 None (v, None) in truthful (fst x) (snd x).
Proof.
  intros ew os. induction os as [|o os IH] using rev_ind; intros v H x; [exact Logic.I|]. subst x. rewrite converse_snoc.
  rewrite taken_app in H. destruct (only_app _ _ _ _ H) as [H1 H2]. specialize (IH v H1). cbv zeta in IH.
  pose proof (fst_converse ew os listener0 None (v, None)) as Hf. cbn [fst] in Hf. rewrite <- Hf in H2.
  destruct (converse ew os listener0 None (v, None)) as [v1 w]. cbn [fst snd] in *. cbn [SpecRx.taken] in H2. rewrite app_nil_r in H2.
  destruct o; try exact IH; cbn [turn].
  - destruct (if l_fresh (listen_all os listener0) then [] else firstn 1 (l_queue (listen_all os listener0))) as [|p q] eqn:Eq; [exact IH|].
    cbn [fst snd]. apply truthful_obey; [exact IH|]. cbn [only_by_cv_packets] in H2. apply H2.
  - destruct (last_heard os listener0 None) as [p|]; [|exact IH]. destruct (own_cv_packet (v_cvs v1) p); [|exact IH].
    destruct (speaks p v1 w); first [exact IH|exact Logic.I].
Qed.

(** ** Reading *)

Lemma own_recipient : forall c p, own_cv_packet c p = true -> recipient c p = Some (aval (address_of p)) /\ long_form p = true.
Proof.
  intros c p H. unfold own_cv_packet in H. unfold recipient, long_form.
  destruct (atyp (address_of p)); try discriminate; apply andb_prop in H; destruct H as [H H3]; apply andb_prop in H; destruct H as [H1 H2];
    rewrite H1, H2, H3, orb_true_r; split; reflexivity.
Qed.

(** An own CV packet: the access is made as often as it is due *)
Definition not_consist (c : Z -> Z) (p : list Z) : Prop := aval (address_of p) = 0 \/ aval (address_of p) <> aval (consist_address c).
Lemma obey_own : forall ew p v x, v_service v = false -> own_cv_packet (v_cvs v) p = true -> asks p = [x] -> not_consist (v_cvs v) p ->
  obey ew p v = perform_all (due (v_times (count p v)) x) (count p v).
Proof.
  intros ew p v x Hsv Ho Ha Hc. destruct (own_recipient _ _ Ho) as [Hr Hl]. unfold obey. rewrite Hsv. unfold operations. rewrite Hr.
  unfold asks in Ha. unfold long_form in Hl. rewrite Hl in Ha. destruct (body_of p) as [|b0 t]; [discriminate Hl|]. cbn [hd nth] in Ha, Hl.
  replace (b0 <? 16) with false by lia. replace (b0 <? 32) with false by lia. replace (b0 <? 224) with false by lia.
  replace (b0 <? 240) with true by lia.
  replace (negb (aval (address_of p) =? 0) && (aval (address_of p) =? aval (consist_address (v_cvs v)))) with false.
  2: { symmetry. destruct Hc as [->|Hc]; [reflexivity|]. rewrite (proj2 (Z.eqb_neq _ _) Hc). apply andb_false_r. }
  cbv zeta. rewrite Ha. cbn [flat_map]. rewrite app_nil_r. reflexivity.
Qed.
Lemma obey_read : forall ew p v x, v_service v = false -> own_cv_packet (v_cvs v) p = true -> asks p = [x] -> is_writing x = false ->
  cvs_locked (switches (v_cvs v)) = false -> not_consist (v_cvs v) p ->
  obey ew p v = (count p v, [Access x]).
Proof.
  intros ew p v x Hsv Ho Ha Hw Hlk Hc. rewrite (obey_own ew p v x Hsv Ho Ha Hc). replace (due (v_times (count p v)) x) with [x] by (destruct x; try discriminate; reflexivity).
  rewrite one_all. unfold perform, permitted. change (v_cvs (count p v)) with (v_cvs v). rewrite Hlk. cbn [negb orb].
  change (v_service (count p v)) with (v_service v). rewrite Hsv. cbn [andb]. f_equal. destruct x; try discriminate; reflexivity.
Qed.
Lemma times_one : forall p v, p <> v_last v -> v_times (count p v) = 1%nat.
Proof. intros p v H. unfold count. cbn [v_times]. destruct (list_eq_dec Z.eq_dec (v_last v) p); congruence. Qed.
Lemma obey_first : forall ew p v x, v_service v = false -> own_cv_packet (v_cvs v) p = true -> asks p = [x] -> is_writing x = true ->
  not_consist (v_cvs v) p -> p <> v_last v -> obey ew p v = (count p v, []).
Proof.
  intros ew p v x Hsv Ho Ha Hw Hc Hn. rewrite (obey_own ew p v x Hsv Ho Ha Hc).
  replace (v_times (count p v)) with 1%nat by (symmetry; apply times_one; exact Hn).
  destruct x; try discriminate; reflexivity.
Qed.
Lemma obey_second : forall ew p v x, v_service v = false -> own_cv_packet (v_cvs v) p = true -> asks p = [x] -> is_writing x = true ->
  permitted (cvs_locked (switches (v_cvs v))) x = true -> not_consist (v_cvs v) p -> p <> v_last v ->
  obey ew p (count p v) = (with_cvs (after x (v_cvs v)) (count p (count p v)), [Access x]).
Proof.
  intros ew p v x Hsv Ho Ha Hw Hlk Hc Hn. rewrite (obey_own ew p (count p v) x Hsv Ho Ha Hc). rewrite times_count by reflexivity.
  replace (v_times (count p v)) with 1%nat by (symmetry; apply times_one; exact Hn).
  replace (due 2 x) with [x] by (destruct x; try discriminate; reflexivity). rewrite one_all. unfold perform.
  change (v_cvs (count p (count p v))) with (v_cvs v). rewrite Hlk. change (v_service (count p (count p v))) with (v_service v). rewrite Hsv. reflexivity.
Qed.

Lemma listen_fresh : forall o l, completed o l = None -> l_fresh l = false -> l_fresh (listen o l) = false.
Proof.
  intros o l Hc Hf. destruct o; try exact Hf; cbn [listen completed] in *.
  - destruct (l_on l); exact Hf.
  - destruct (half_bit time) as [b|]; [|reflexivity]. unfold hear. cbv zeta in *. destruct (_ && _); [reflexivity|].
    destruct (reading _) as [| |bs]; try reflexivity. destruct (valid_packet bs); [discriminate|reflexivity].
  - rewrite Hf. reflexivity.
Qed.
Lemma fresh_completed : forall o l p, completed o l = Some p -> l_fresh (listen o l) = true.
Proof.
  intros o l p Hc. destruct o; try discriminate. cbn [listen completed] in *.
  destruct (half_bit time) as [b|]; [|discriminate]. unfold hear. cbv zeta in *. destruct (_ && _); [discriminate|].
  destruct (reading _) as [| |bs]; try discriminate. destruct (valid_packet bs); [reflexivity|discriminate].
Qed.

Lemma converse_app : forall ew a b l h x, converse ew (a ++ b) l h x = converse ew b (listen_all a l) (last_heard a l h) (converse ew a l h x).
Proof. intros ew. induction a as [|o a IH]; intros b l h x; [reflexivity|]. cbn [List.app converse]. rewrite IH. reflexivity. Qed.
Lemma heard_app : forall a b l, heard (a ++ b) l = heard a l ++ heard b (listen_all a l).
Proof. induction a as [|o a IH]; intros b l; [reflexivity|]. cbn [List.app heard]. rewrite IH, app_assoc. reflexivity. Qed.
Lemma listen_all_app : forall a b l, listen_all (a ++ b) l = listen_all b (listen_all a l).
Proof. intros a b l. unfold listen_all. apply fold_left_app. Qed.

Lemma quiet_converse : forall ew b l h x, heard b l = [] -> logons b l = [] -> SpecRx.taken b l = [] -> l_fresh l = false ->
  (forall b1 b2, b = b1 ++ OBiDi2 :: b2 -> l_fresh (listen_all b1 l) = true) -> converse ew b l h x = x.
Proof.
  intros ew. induction b as [|o b IH]; intros l h x Hh Hl Ht Hf Hb; [reflexivity|]. cbn [converse heard logons SpecRx.taken] in *.
  apply app_eq_nil in Hh, Hl, Ht. destruct Hh as [Hh1 Hh2], Hl as [Hl1 Hl2], Ht as [Ht1 Ht2].
  assert (completed o l = None) as Hc by (destruct (completed o l) as [bs|]; [destruct (is_logon bs); discriminate|reflexivity]).
  rewrite IH; try assumption.
  - destruct x as [v w]. destruct o; try reflexivity; cbn [turn]; [rewrite Ht1; reflexivity|].
    specialize (Hb [] b eq_refl). cbn [listen_all fold_left] in Hb. congruence.
  - exact (listen_fresh o l Hc Hf).
  - intros b1 b2 ->. exact (Hb (o :: b1) b2 eq_refl).
Qed.

Lemma taken_split : forall os l hs p, SpecRx.taken os l = hs ++ [p] -> exists a b q, os = a ++ OExecute :: b /\ SpecRx.taken a l = hs /\
  l_fresh (listen_all a l) = false /\ l_queue (listen_all a l) = p :: q /\ SpecRx.taken b (listen OExecute (listen_all a l)) = [].
Proof.
  induction os as [|o os IH] using rev_ind; intros l hs p H; [destruct hs; discriminate|]. rewrite taken_app in H. cbn [SpecRx.taken] in H. rewrite app_nil_r in H.
  assert (K : SpecRx.taken os l = hs ++ [p] -> SpecRx.taken [o] (listen_all os l) = [] -> exists a b q, os ++ [o] = a ++ OExecute :: b /\ SpecRx.taken a l = hs /\
    l_fresh (listen_all a l) = false /\ l_queue (listen_all a l) = p :: q /\ SpecRx.taken b (listen OExecute (listen_all a l)) = []).
  { intros K1 K2. destruct (IH l hs p K1) as (a & b & q & -> & Ha & Hf & Hq & Hb). exists a, (b ++ [o]), q.
    split; [rewrite <- app_assoc; reflexivity|]. split; [exact Ha|]. split; [exact Hf|]. split; [exact Hq|].
    rewrite taken_app, Hb. rewrite listen_all_app in K2. exact K2. }
  destruct o; try (rewrite app_nil_r in H; apply K; [exact H|reflexivity]). cbn [SpecRx.taken] in K.
  destruct (l_fresh (listen_all os l)) eqn:Ef; [rewrite app_nil_r in H; apply K; [exact H|reflexivity]|].
  destruct (l_queue (listen_all os l)) as [|x q] eqn:Eq; [rewrite app_nil_r in H; apply K; [exact H|reflexivity]|].
  cbn [firstn] in H. apply app_inj_tail in H. destruct H as [H1 ->]. exists os, [], q. auto.
Qed.

(** The packet was executed last and nothing came in between: its value waits *)
Lemma access_waits : forall ew os c hs p y v', logons os listener0 = [] -> on_time os -> heard os listener0 = hs ++ [p] ->
  l_queue (listen_all os listener0) = [] ->
  let v := fst (obey_all ew hs (new_view c)) in
  v_service v = false -> data_channel (v_cvs v) = true -> obey ew p v = (v', [Access y]) ->
  converse ew os listener0 None (new_view c, None) = (v', Some (content y (after y (v_cvs v)))).
Proof.
  intros ew os c hs p y v' Hlo Hot Hh Hq v Hsv Hch Hob.
  pose proof (log_queue os listener0) as Hlog. cbn [listener0 l_queue List.app] in Hlog. rewrite Hq, app_nil_r, Hh in Hlog. symmetry in Hlog.
  destruct (taken_split _ _ _ _ Hlog) as (a & b & q & -> & Hta & Hfa & Hqa & Htb).
  pose proof (log_queue a listener0) as Hla. cbn [listener0 l_queue List.app] in Hla. rewrite Hqa, Hta in Hla.
  change (a ++ OExecute :: b) with (a ++ [OExecute] ++ b) in *. rewrite !heard_app, Hla in Hh. cbn [heard completed List.app] in Hh.
  rewrite <- app_assoc in Hh. cbn [List.app] in Hh. apply app_inv_head in Hh. injection Hh as Hh. apply app_eq_nil in Hh. destruct Hh as [-> Hhb].
  rewrite !logons_app in Hlo. apply app_eq_nil in Hlo. destruct Hlo as [_ Hlo]. cbn [logons completed List.app] in Hlo.
  rewrite converse_app. cbn [converse List.app].
  pose proof (fst_converse ew a listener0 None (new_view c, None)) as Hf. cbn [fst] in Hf. rewrite Hta in Hf. fold v in Hf.
  destruct (converse ew a listener0 None (new_view c, None)) as [v0 w0]. cbn [fst] in Hf. subst v0.
  change (listen_all [OExecute] (listen_all a listener0)) with (listen OExecute (listen_all a listener0)) in *.
  assert (Hex : turn ew OExecute (listen_all a listener0) (last_heard a listener0 None) (v, w0) = (v', Some (content y (after y (v_cvs v))))).
  { cbn [turn]. rewrite Hfa, Hqa. cbn [firstn]. unfold reply. rewrite Hob. cbn [fst snd answer]. rewrite Hsv, Hch. reflexivity. }
  rewrite Hex. apply quiet_converse; try assumption.
  - cbn [listen]. rewrite Hfa. reflexivity.
  - intros b1 b2 ->. specialize (Hot (a ++ [OExecute] ++ b1) OBiDi2 b2). rewrite <- !app_assoc in Hot. specialize (Hot eq_refl). cbn beta iota in Hot.
    rewrite !listen_all_app in Hot. exact Hot.
Qed.

Section Claims.
  Context {I : Type} (E : Env I) (m : I -> Z -> Z) (able : access -> Prop) (Hk : keeps_cvs able E m).
  Implicit Types s : st I.

  Theorem dialogue_spoken : forall os i s es p, run E (OInit :: os) (st0 i) = Ok (tt, s, es) -> logons os listener0 = [] -> on_time os ->
    Forall (allowed able) (snd (obey_all (e_east_west E) (SpecRx.taken os listener0) (new_view (m i)))) ->
    l_fresh (listen_all os listener0) = true -> last_heard os listener0 None = Some p ->
    let '(v, w) := converse (e_east_west E) os listener0 None (new_view (m i), None) in
    own_cv_packet (v_cvs v) p = true -> exists s' ds,
    biDiChannel2 E s = Ok (tt, s', map ETransmitBiDi ds) /\ transmitted (speaks p v w) ds /\
    forall r, speaks p v w = Value r -> byte r.
  Proof.
    intros os i s es p H Hlo Hot Hra Hf Hp. pose proof (dialogue E m able Hk os i s es H Hlo Hot Hra) as K. cbv zeta in K.
    destruct (converse (e_east_west E) os listener0 None (new_view (m i), None)) as [v w]. cbn [fst snd] in K. destruct K as [(Hre & HR & HS & _) HW].
    intros Ho. assert (cutout s) as Hc by (unfold cutout; destruct HR as (_ & _ & X & _); congruence).
    pose proof (fresh_heard E i (OInit :: os) s es H Hc) as Hl. change (last_heard (OInit :: os) listener0 None) with (last_heard os listener0 None) in Hl.
    rewrite Hp in Hl. injection Hl as ->. destruct (spoken E m v w s Hre HS HW Hc) as (s' & ds & H1 & H2 & _).
    exists s', ds. split; [exact H1|]. destruct (H2 Ho) as [H3 _]. split; [exact H3|]. intros r Hr. unfold speaks in Hr.
    destruct (negb _); [discriminate|]. destruct (list_eq_dec Z.eq_dec (last_bytes s) (v_last v)); [|discriminate].
    destruct w as [x|]; [|discriminate]. injection Hr as ->. exact (proj1 (proj2 HW)).
  Qed.

  Lemma byte_read : forall r d, byte r -> carries 2 r d -> make_data (decode_datagram d) = Ok r.
  Proof. intros r d Hr Hc. apply (carries_reads 2); [lia| |exact Hc]. unfold byte in Hr. change (64 ^ Z.of_nat 2) with 4096. lia. Qed.

  Theorem answers_true : forall os i s es p, run E (OInit :: os) (st0 i) = Ok (tt, s, es) -> logons os listener0 = [] -> on_time os ->
    Forall (allowed able) (snd (obey_all (e_east_west E) (SpecRx.taken os listener0) (new_view (m i)))) ->
    only_by_cv_packets (e_east_west E) (SpecRx.taken os listener0) (new_view (m i)) ->
    l_fresh (listen_all os listener0) = true -> last_heard os listener0 None = Some p -> own_cv_packet (m (app s)) p = true ->
    exists s' ds, biDiChannel2 E s = Ok (tt, s', map ETransmitBiDi ds) /\
    (ds = [] \/ ds = [[0x0F]] \/ exists x d, In x (asks p) /\ ds = [d] /\ make_data (decode_datagram d) = Ok (content x (m (app s)))).
  Proof.
    intros os i s es p H Hlo Hot Hra Hon Hf Hp Ho.
    pose proof (dialogue_spoken os i s es p H Hlo Hot Hra Hf Hp) as K. pose proof (dialogue E m able Hk os i s es H Hlo Hot Hra) as G. cbv zeta in G.
    pose proof (truthful_converse (e_east_west E) os (new_view (m i)) Hon) as T. cbv zeta in T.
    destruct (converse (e_east_west E) os listener0 None (new_view (m i), None)) as [v w]. cbn [fst snd] in G, T. destruct G as [(_ & _ & (Hcv & _) & _) _].
    assert (own_cv_packet (v_cvs v) p = own_cv_packet (m (app s)) p) as Eo.
    { unfold own_cv_packet. replace (own_address (v_cvs v)) with (own_address (m (app s))); [reflexivity|]. unfold own_address, cv. rewrite !Hcv. reflexivity. }
    rewrite Eo in K. destruct (K Ho) as (s' & ds & H1 & H2 & H3). exists s', ds. split; [exact H1|].
    destruct (own_recipient _ _ Ho) as [_ Hl].
    destruct (speaks p v w) as [| |r] eqn:Es; cbn [transmitted] in H2; [auto|auto|right; right].
    destruct H2 as (d & -> & Hcar). unfold speaks in Es. destruct (negb _); [discriminate|].
    destruct (list_eq_dec Z.eq_dec p (v_last v)) as [e|]; [|discriminate]. destruct w as [x|]; [|discriminate]. injection Es as ->.
    cbn [truthful] in T. rewrite <- e in T. destruct (T Hl) as (x & Hx & Hr & _). exists x, d. split; [exact Hx|]. split; [reflexivity|].
    rewrite (byte_read r d (H3 r eq_refl) Hcar). f_equal. rewrite Hr. destruct x; cbn [content]; rewrite ?Hcv; reflexivity.
  Qed.

  Lemma access_answered : forall os t i s es hs p y v', run E (OInit :: os ++ [OReceive t]) (st0 i) = Ok (tt, s, es) ->
    logons (os ++ [OReceive t]) listener0 = [] -> on_time os ->
    Forall (allowed able) (snd (obey_all (e_east_west E) (hs ++ [p]) (new_view (m i)))) ->
    heard os listener0 = hs ++ [p] -> l_queue (listen_all os listener0) = [] -> completed (OReceive t) (listen_all os listener0) = Some p ->
    let v := fst (obey_all (e_east_west E) hs (new_view (m i))) in
    v_service v = false -> data_channel (v_cvs v) = true -> obey (e_east_west E) p v = (v', [Access y]) -> v_last v' = p ->
    data_channel (v_cvs v') = true -> own_cv_packet (v_cvs v') p = true ->
    exists s' d, biDiChannel2 E s = Ok (tt, s', [ETransmitBiDi d]) /\
      make_data (decode_datagram d) = Ok (content y (after y (v_cvs v))) /\ forall a, m (app s) a = v_cvs v' a.
  Proof.
    intros os t i s es hs p y v' H Hlo Hot Hra Hh Hq Hco v Hsv Hch Hob Hla Hch' Ho'.
    assert (on_time (os ++ [OReceive t])) as Hot2.
    { intros o1 o o2 Eo. induction o2 as [|z o3 _] using rev_ind.
      - apply app_inj_tail in Eo. destruct Eo as [_ <-]. exact Logic.I.
      - change (o :: o3 ++ [z]) with ((o :: o3) ++ [z]) in Eo. rewrite app_assoc in Eo. apply app_inj_tail in Eo. destruct Eo as [-> _]. exact (Hot o1 o o3 eq_refl). }
    pose proof (log_queue os listener0) as Hlog. cbn [listener0 l_queue List.app] in Hlog. rewrite Hq, app_nil_r, Hh in Hlog.
    assert (Ht : SpecRx.taken (os ++ [OReceive t]) listener0 = hs ++ [p]) by (rewrite taken_app, <- Hlog; cbn [SpecRx.taken]; apply app_nil_r).
    pose proof Hlo as Hlo1. rewrite logons_app in Hlo1. apply app_eq_nil in Hlo1. destruct Hlo1 as [Hlo1 _].
    pose proof (access_waits (e_east_west E) os (m i) hs p y v' Hlo1 Hot Hh Hq Hsv Hch Hob) as Hx. fold v in Hx.
    rewrite <- Ht in Hra.
    pose proof (dialogue_spoken _ i s es p H Hlo Hot2 Hra) as K. pose proof (dialogue E m able Hk _ i s es H Hlo Hot2 Hra) as G. cbv zeta in G.
    rewrite converse_snoc, Hx in K, G. cbn [turn fst snd] in K, G.
    rewrite listen_all_app, last_heard_snoc, Hco in K. specialize (K (fresh_completed _ _ _ Hco) eq_refl Ho'). destruct K as (s' & ds & H1 & H2 & H3).
    unfold speaks in H2, H3. rewrite Hch' in H2, H3. cbn [negb] in H2, H3.
    rewrite Hla in H2, H3. rewrite kept_self in H2, H3. cbn [transmitted] in H2. destruct H2 as (d & -> & Hcar).
    exists s', d. split; [exact H1|]. split; [exact (byte_read _ _ (H3 _ eq_refl) Hcar)|].
    destruct G as [(_ & _ & (Hcv & _) & _) _]. exact Hcv.
  Qed.

  Theorem read_answered : forall os t i s es hs p x, run E (OInit :: os ++ [OReceive t]) (st0 i) = Ok (tt, s, es) ->
    logons (os ++ [OReceive t]) listener0 = [] -> on_time os ->
    Forall (allowed able) (snd (obey_all (e_east_west E) hs (new_view (m i)))) ->
    heard os listener0 = hs ++ [p] -> l_queue (listen_all os listener0) = [] -> completed (OReceive t) (listen_all os listener0) = Some p ->
    let v := fst (obey_all (e_east_west E) hs (new_view (m i))) in
    v_service v = false -> own_cv_packet (v_cvs v) p = true -> asks p = [x] -> is_writing x = false ->
    cvs_locked (switches (v_cvs v)) = false -> aval (address_of p) = 0 \/ aval (address_of p) <> aval (consist_address (v_cvs v)) ->
    data_channel (v_cvs v) = true ->
    exists s' d, biDiChannel2 E s = Ok (tt, s', [ETransmitBiDi d]) /\
      make_data (decode_datagram d) = Ok (content x (v_cvs v)) /\ forall a, m (app s) a = v_cvs v a.
  Proof.
    intros os t i s es hs p x H Hlo Hot Hra Hh Hq Hco v Hsv Ho Ha Hw Hlk Hc Hch.
    assert (Hob := obey_read (e_east_west E) p v x Hsv Ho Ha Hw Hlk Hc).
    destruct (access_answered os t i s es hs p x (count p v) H Hlo Hot) as (s' & d & H1 & H2 & H3); auto.
    - rewrite obey_app. cbn [snd]. apply Forall_app. split; [exact Hra|]. fold v. cbn [obey_all].
      rewrite Hob. cbn [snd List.app]. apply Forall_cons; [|apply Forall_nil]. cbn [allowed]. congruence.
    - exists s', d. split; [exact H1|]. split; [|exact H3]. rewrite H2. fold v. destruct x; try discriminate; reflexivity.
  Qed.

  (** A write takes effect the second time and is answered in the third cutout *)
  Theorem write_answered : forall os t i s es hs p x, run E (OInit :: os ++ [OReceive t]) (st0 i) = Ok (tt, s, es) ->
    logons (os ++ [OReceive t]) listener0 = [] -> on_time os ->
    Forall (allowed able) (snd (obey_all (e_east_west E) hs (new_view (m i)))) ->
    heard os listener0 = hs ++ [p; p] -> l_queue (listen_all os listener0) = [] -> completed (OReceive t) (listen_all os listener0) = Some p ->
    let v := fst (obey_all (e_east_west E) hs (new_view (m i))) in
    v_service v = false -> own_cv_packet (v_cvs v) p = true -> asks p = [x] -> is_writing x = true -> able x -> v_last v <> p ->
    permitted (cvs_locked (switches (v_cvs v))) x = true ->
    aval (address_of p) = 0 \/ aval (address_of p) <> aval (consist_address (v_cvs v)) ->
    data_channel (v_cvs v) = true -> let c := after x (v_cvs v) in data_channel c = true -> own_cv_packet c p = true ->
    exists s' d, biDiChannel2 E s = Ok (tt, s', [ETransmitBiDi d]) /\
      make_data (decode_datagram d) = Ok (content x c) /\ forall a, m (app s) a = c a.
  Proof.
    intros os t i s es hs p x H Hlo Hot Hra Hh Hq Hco v Hsv Ho Ha Hw Hab Hn Hlk Hc Hch c Hch' Ho'.
    assert (Hn' : p <> v_last v) by congruence.
    assert (Hob := obey_first (e_east_west E) p v x Hsv Ho Ha Hw Hc Hn').
    assert (Hob2 := obey_second (e_east_west E) p v x Hsv Ho Ha Hw Hlk Hc Hn').
    assert (Hv : obey_all (e_east_west E) (hs ++ [p]) (new_view (m i)) = (count p v, snd (obey_all (e_east_west E) hs (new_view (m i))))).
    { rewrite obey_app. fold v. cbn [obey_all]. rewrite Hob. cbn [fst snd List.app]. rewrite app_nil_r. reflexivity. }
    change [p; p] with ([p] ++ [p]) in Hh. rewrite app_assoc in Hh.
    destruct (access_answered os t i s es (hs ++ [p]) p x (with_cvs c (count p (count p v))) H Hlo Hot) as (s' & d & H1 & H2 & H3);
      try (rewrite Hv; cbn [fst]); auto.
    - rewrite obey_app, Hv. cbn [fst snd obey_all]. rewrite Hob2. cbn [snd List.app]. apply Forall_app. split; [exact Hra|].
      apply Forall_cons; [|apply Forall_nil]. cbn [allowed]. auto.
    - exists s', d. split; [exact H1|]. split; [|exact H3]. rewrite H2, Hv. reflexivity.
  Qed.
End Claims.
