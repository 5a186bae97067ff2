(** Reading CVs with other packets in between *)
From Verif Require Import Prelude Address Instruction Datagram ZBits SpecCodec RxState Rx CodecProofs CodecProofs2 RxLogic SpecRx RxBitProofs RxBitProofs4
  SpecExec SpecConf SpecCv SpecLogon SpecBidi BidiProofs3 SpecStation StationProofs2 SpecLayout
  LayoutProofs LayoutProofs2 LayoutProofs3 LayoutProofs4 SpecDialog DialogProofs DialogProofs2 DialogProofs3 DialogProofs4.

(** The packet leaves the decoder as it is, and is none for its CVs *)
Definition passes (ew : bool) (v : view) (q : list Z) : Prop :=
  fst (obey ew q v) = v /\ (forall x, ~ In (Access x) (snd (obey ew q v))) /\ own_cv_packet (v_cvs v) q = false.

Lemma answer_told : forall xs v w, (forall x, ~ In (Access x) xs) -> answer xs v w = w.
Proof.
  induction xs as [|[e|x] xs IH]; intros v w H; cbn [answer]; [reflexivity| |].
  - apply IH. intros x Hx. apply (H x). right. exact Hx.
  - exfalso. apply (H x). left. reflexivity.
Qed.

Lemma calm_converse : forall ew b l h v w, logons b l = [] ->
  (forall q, In q (heard b l) -> passes ew v q) -> (forall q, In q (SpecRx.taken b l) -> passes ew v q) ->
  (l_fresh l = true -> exists q, h = Some q /\ passes ew v q) ->
  (forall b1 b2, b = b1 ++ OBiDi2 :: b2 -> l_fresh (listen_all b1 l) = true) -> converse ew b l h (v, w) = (v, w).
Proof.
  intros ew. induction b as [|o b IH]; intros l h v w Hl Hh Ht Hf Hb; [reflexivity|]. cbn [converse heard logons SpecRx.taken] in *.
  apply app_eq_nil in Hl. destruct Hl as [Hl1 Hl2].
  assert (Hturn : turn ew o l h (v, w) = (v, w)).
  { destruct o; try reflexivity; cbn [turn].
    - destruct (if l_fresh l then [] else firstn 1 (l_queue l)) as [|q r] eqn:Eq; [reflexivity|].
      assert (Hp : passes ew v q) by (apply Ht; apply in_or_app; left; left; reflexivity). destruct Hp as (P1 & P2 & _).
      rewrite P1. f_equal. unfold reply. rewrite (answer_told _ _ _ P2), P1. destruct (list_eq_dec Z.eq_dec (v_last v) (v_last v)); [reflexivity|congruence].
    - destruct (Hf (Hb [] b eq_refl)) as (q & -> & _ & _ & ->). reflexivity. }
  rewrite Hturn. apply IH; try assumption.
  - intros q Hq. apply Hh. apply in_or_app. right. exact Hq.
  - intros q Hq. apply Ht. apply in_or_app. right. exact Hq.
  - intros Hfr. cbn [last_heard]. destruct (completed o l) as [bs|] eqn:Ec.
    + exists bs. split; [reflexivity|]. apply Hh. apply in_or_app. left. destruct (is_logon bs); [discriminate Hl1|left; reflexivity].
    + destruct (l_fresh l) eqn:Ef; [|rewrite (listen_fresh o l Ec Ef) in Hfr; discriminate Hfr].
      destruct (Hf eq_refl) as (q & -> & Hq). destruct o; cbn [rejected]; try (exists q; split; [reflexivity|exact Hq]).
      exfalso. cbn [listen] in Hfr. cbn [completed] in Ec. destruct (half_bit time) as [c|]; [|discriminate Hfr].
      unfold hear in Hfr. cbv zeta in Hfr, Ec. destruct (_ && _); [discriminate Hfr|].
      destruct (reading _) as [| |bs]; try discriminate Hfr. destruct (valid_packet bs); [discriminate Ec|discriminate Hfr].
  - intros b1 b2 ->. exact (Hb (o :: b1) b2 eq_refl).
Qed.

Lemma taken_cut : forall os l hs p qs, SpecRx.taken os l = hs ++ p :: qs -> exists a b q, os = a ++ OExecute :: b /\ SpecRx.taken a l = hs /\
  l_fresh (listen_all a l) = false /\ l_queue (listen_all a l) = p :: q /\ SpecRx.taken b (listen OExecute (listen_all a l)) = qs.
Proof.
  induction os as [|o os IH]; intros l hs p qs H; [destruct hs; discriminate H|]. cbn [SpecRx.taken] in H.
  assert (K : SpecRx.taken [o] l = [] -> SpecRx.taken os (listen o l) = hs ++ p :: qs -> exists a b q, o :: os = a ++ OExecute :: b /\ SpecRx.taken a l = hs /\
    l_fresh (listen_all a l) = false /\ l_queue (listen_all a l) = p :: q /\ SpecRx.taken b (listen OExecute (listen_all a l)) = qs).
  { intros K1 K2. destruct (IH _ _ _ _ K2) as (a & b & q & -> & Ha & Hr). exists (o :: a), b, q. split; [reflexivity|].
    split; [|exact Hr]. cbn [SpecRx.taken] in *. rewrite app_nil_r in K1. rewrite K1, Ha. reflexivity. }
  destruct o; try (apply K; [reflexivity|exact H]). cbn [SpecRx.taken] in K.
  destruct (l_fresh l) eqn:Ef; [apply K; [reflexivity|exact H]|].
  destruct (l_queue l) as [|x q] eqn:Eq; [apply K; [reflexivity|exact H]|]. clear K. cbn [firstn List.app] in H.
  destruct hs as [|y hs].
  - injection H as -> H. exists [], os, q. auto.
  - injection H as <- H. destruct (IH _ _ _ _ H) as (a & b & q' & -> & Ha & Hr). exists (OExecute :: a), b, q'. split; [reflexivity|].
    split; [|exact Hr]. cbn [SpecRx.taken]. rewrite Ef, Eq. cbn [firstn List.app]. f_equal. exact Ha.
Qed.

Lemma access_waits_on : forall ew os c hs p qs y v', logons os listener0 = [] -> on_time os -> heard os listener0 = hs ++ p :: qs ->
  l_queue (listen_all os listener0) = [] ->
  let v := fst (obey_all ew hs (new_view c)) in
  v_service v = false -> data_channel (v_cvs v) = true -> obey ew p v = (v', [Access y]) -> Forall (passes ew v') qs ->
  converse ew os listener0 None (new_view c, None) = (v', Some (content y (after y (v_cvs v)))).
Proof.
  intros ew os c hs p qs y v' Hlo Hot Hh Hq v Hsv Hch Hob Hps.
  pose proof (log_queue os listener0) as Hlog. cbn [listener0 l_queue List.app] in Hlog. rewrite Hq, app_nil_r, Hh in Hlog. symmetry in Hlog.
  destruct (taken_cut _ _ _ _ _ Hlog) as (a & b & q & -> & Hta & Hfa & Hqa & Htb).
  pose proof (log_queue a listener0) as Hla. cbn [listener0 l_queue List.app] in Hla. rewrite Hqa, Hta in Hla.
  change (a ++ OExecute :: b) with (a ++ [OExecute] ++ b) in *. rewrite !heard_app, Hla in Hh. cbn [heard completed List.app] in Hh.
  rewrite <- app_assoc in Hh. cbn [List.app] in Hh. apply app_inv_head in Hh. injection Hh as Hh.
  rewrite !logons_app in Hlo. apply app_eq_nil in Hlo. destruct Hlo as [_ Hlo]. cbn [logons completed List.app] in Hlo.
  rewrite converse_app. cbn [converse List.app].
  pose proof (fst_converse ew a listener0 None (new_view c, None)) as Hf. cbn [fst] in Hf. rewrite Hta in Hf. fold v in Hf.
  destruct (converse ew a listener0 None (new_view c, None)) as [v0 w0]. cbn [fst] in Hf. subst v0.
  change (listen_all [OExecute] (listen_all a listener0)) with (listen OExecute (listen_all a listener0)) in *.
  assert (Hex : turn ew OExecute (listen_all a listener0) (last_heard a listener0 None) (v, w0) = (v', Some (content y (after y (v_cvs v))))).
  { cbn [turn]. rewrite Hfa, Hqa. cbn [firstn]. unfold reply. rewrite Hob. cbn [fst snd answer]. rewrite Hsv, Hch. reflexivity. }
  rewrite Hex. rewrite Forall_forall in Hps. apply calm_converse; try assumption.
  - intros x Hx. apply Hps. rewrite <- Hh. apply in_or_app. right. exact Hx.
  - intros x Hx. apply Hps. rewrite <- Htb. exact Hx.
  - cbn [listen]. rewrite Hfa. discriminate.
  - intros b1 b2 ->. specialize (Hot (a ++ [OExecute] ++ b1) OBiDi2 b2). rewrite <- !app_assoc in Hot. specialize (Hot eq_refl). cbn beta iota in Hot.
    rewrite !listen_all_app in Hot. exact Hot.
Qed.

Lemma passes_all : forall ew qs v, Forall (passes ew v) qs -> fst (obey_all ew qs v) = v /\ forall x, ~ In (Access x) (snd (obey_all ew qs v)).
Proof.
  induction qs as [|q qs IH]; intros v H; [split; [reflexivity|intros x []]|].
  pose proof (Forall_inv H) as (P1 & P2 & _). destruct (IH v (Forall_inv_tail H)) as [K1 K2]. cbn [obey_all].
  destruct (obey ew q v) as [v1 a]. cbn [fst snd] in P1, P2. subst v1. destruct (obey_all ew qs v) as [v2 b]. cbn [fst snd] in *.
  split; [exact K1|]. intros x Hx. apply in_app_or in Hx. destruct Hx as [Hx|Hx]; [exact (P2 x Hx)|exact (K2 x Hx)].
Qed.

Section Reads.
  Context {I : Type} (E : Env I) (m : I -> Z -> Z) (able : access -> Prop) (Hk : keeps_cvs able E m).
  Implicit Types s : st I.

  (** Executed, then packets that pass, then heard again *)
  Lemma read_answered_on : forall os t i s es hs p qs x, run E (OInit :: os ++ [OReceive t]) (st0 i) = Ok (tt, s, es) ->
    logons (os ++ [OReceive t]) listener0 = [] -> on_time os ->
    Forall (allowed able) (snd (obey_all (e_east_west E) hs (new_view (m i)))) ->
    heard os listener0 = hs ++ p :: qs -> l_queue (listen_all os listener0) = [] -> completed (OReceive t) (listen_all os listener0) = Some p ->
    let v := fst (obey_all (e_east_west E) hs (new_view (m i))) in
    v_service v = false -> own_cv_packet (v_cvs v) p = true -> asks p = [x] -> is_writing x = false ->
    cvs_locked (switches (v_cvs v)) = false -> aval (address_of p) = 0 \/ aval (address_of p) <> aval (consist_address (v_cvs v)) ->
    data_channel (v_cvs v) = true -> Forall (passes (e_east_west E) (count p v)) qs ->
    exists s' d, biDiChannel2 E s = Ok (tt, s', [ETransmitBiDi d]) /\
      make_data (decode_datagram d) = Ok (content x (v_cvs v)) /\ forall a, m (app s) a = v_cvs v a.
  Proof.
    intros os t i s es hs p qs x H Hlo Hot Hra Hh Hq Hco v Hsv Ho Ha Hw Hlk Hc Hch Hps.
    assert (Hob := obey_read (e_east_west E) p v x Hsv Ho Ha Hw Hlk Hc).
    assert (on_time (os ++ [OReceive t])) as Hot2.
    { intros o1 o o2 Eo. induction o2 as [|z o3 _] using rev_ind.
      - apply app_inj_tail in Eo. destruct Eo as [_ <-]. exact Logic.I.
      - change (o :: o3 ++ [z]) with ((o :: o3) ++ [z]) in Eo. rewrite app_assoc in Eo. apply app_inj_tail in Eo. destruct Eo as [-> _]. exact (Hot o1 o o3 eq_refl). }
    pose proof (log_queue os listener0) as Hlog. cbn [listener0 l_queue List.app] in Hlog. rewrite Hq, app_nil_r, Hh in Hlog.
    assert (Ht : SpecRx.taken (os ++ [OReceive t]) listener0 = hs ++ p :: qs) by (rewrite taken_app, <- Hlog; cbn [SpecRx.taken]; apply app_nil_r).
    pose proof Hlo as Hlo1. rewrite logons_app in Hlo1. apply app_eq_nil in Hlo1. destruct Hlo1 as [Hlo1 _].
    pose proof (access_waits_on (e_east_west E) os (m i) hs p qs x (count p v) Hlo1 Hot Hh Hq Hsv Hch Hob Hps) as Hx. fold v in Hx.
    assert (Hra2 : Forall (allowed able) (snd (obey_all (e_east_west E) (SpecRx.taken (os ++ [OReceive t]) listener0) (new_view (m i))))).
    { rewrite Ht, obey_app. cbn [snd]. apply Forall_app. split; [exact Hra|]. fold v. cbn [obey_all]. rewrite Hob.
      destruct (passes_all (e_east_west E) qs (count p v) Hps) as [_ Hn].
      destruct (obey_all (e_east_west E) qs (count p v)) as [v2 b]. cbn [snd List.app] in *.
      apply Forall_cons; [cbn [allowed]; congruence|]. apply Forall_forall. intros [e|y] Hy; [exact Logic.I|]. exfalso. exact (Hn y Hy). }
    pose proof (dialogue_spoken E m able Hk _ i s es p H Hlo Hot2 Hra2) as K. pose proof (dialogue E m able Hk _ i s es H Hlo Hot2 Hra2) as G. cbv zeta in G.
    rewrite converse_snoc, Hx in K, G. cbn [turn fst snd] in K, G.
    rewrite listen_all_app, last_heard_snoc, Hco in K. specialize (K (fresh_completed _ _ _ Hco) eq_refl Ho). destruct K as (s' & ds & H1 & H2 & H3).
    unfold speaks in H2, H3. change (v_cvs (count p v)) with (v_cvs v) in H2, H3. rewrite Hch in H2, H3. cbn [negb] in H2, H3.
    change (v_last (count p v)) with p in H2, H3. rewrite kept_self in H2, H3. cbn [transmitted] in H2. destruct H2 as (d & -> & Hcar).
    exists s', d. split; [exact H1|]. split.
    - rewrite (byte_read _ _ (H3 _ eq_refl) Hcar). destruct x; try discriminate; reflexivity.
    - destruct G as [(_ & _ & (Hcv & _) & _) _]. exact Hcv.
  Qed.
End Reads.
