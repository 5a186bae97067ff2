(** Commands of a station and what the application behind a decoder sees of them *)
From Verif Require Import Prelude Address ZBits SpecCodec SpecTx TxProofs Tx CodecProofs CodecProofs2 RxState Rx RxLogic SpecRx
  RxBitProofs RxBitProofs2 RxBitProofs3 RxBitProofs4 RxBitProofs5 SpecExec SpecConf SpecCv
  SpecLayout LayoutProofs LayoutProofs2 LayoutProofs3 LayoutProofs4 LayoutProofs5 LayoutProofs6 SpecLayout2 LayoutProofs7.
Local Ltac Zify.zify_post_hook ::= Z.div_mod_to_equations.

Section Calm.
  Variable ew : bool.

  Lemma perform_service : forall x v, v_service (fst (perform x v)) = v_service v.
  Proof. intros x v. unfold perform. destruct (permitted _ x); reflexivity. Qed.

  Lemma perform_all_service : forall xs v, v_service (fst (perform_all xs v)) = v_service v.
  Proof.
    induction xs as [|x xs IH]; intros v; [reflexivity|]. cbn [perform_all].
    pose proof (perform_service x v) as H. destruct (perform x v) as [v1 a]. specialize (IH v1).
    destruct (perform_all xs v1) as [v2 b]. cbn [fst] in *. congruence.
  Qed.

  Lemma obey_all_app : forall a b v,
    obey_all ew (a ++ b) v = (fst (obey_all ew b (fst (obey_all ew a v))), snd (obey_all ew a v) ++ snd (obey_all ew b (fst (obey_all ew a v)))).
  Proof.
    induction a as [|p a IH]; intros b v; cbn [List.app obey_all].
    - cbn [fst snd List.app]. destruct (obey_all ew b v); reflexivity.
    - destruct (obey ew p v) as [v1 e1]. rewrite IH. destruct (obey_all ew a v1) as [v2 e2]. cbn [fst snd].
      rewrite app_assoc. reflexivity.
  Qed.

  Definition calm (p : list Z) : Prop := forall v, v_service v = false -> v_service (fst (obey ew p v)) = false.

  Lemma calm_order : forall o, order_ok o -> calm (packet_of o).
  Proof.
    intros [n d] Ho v Hv. unfold packet_of. cbn [fst snd]. destruct (on_cvs d) eqn:Ed.
    - rewrite obey_cv by assumption. destruct (answers (v_cvs v) n && _); [|exact Hv].
      cbv zeta. rewrite perform_all_service. exact Hv.
    - rewrite obey_driving by assumption. exact Hv.
  Qed.

  Lemma idle_obey : forall p v, v_service v = false -> not_idle p = false -> obey ew p v = (v, []).
  Proof.
    intros p v Hv Hp. unfold not_idle in Hp. apply negb_false_iff, Z.eqb_eq in Hp.
    unfold obey. rewrite Hv. unfold operations, recipient.
    replace (atyp (address_of p)) with ATIdle; [reflexivity|].
    destruct p as [|b0 p]; [discriminate|]. cbn [nth] in Hp. subst b0. destruct p; reflexivity.
  Qed.

  Lemma without_idle : forall ps v, v_service v = false -> Forall calm (filter not_idle ps) ->
    obey_all ew ps v = obey_all ew (filter not_idle ps) v.
  Proof.
    induction ps as [|p ps IH]; intros v Hv Hc; [reflexivity|]. cbn [filter] in *.
    destruct (not_idle p) eqn:Ep.
    - inversion Hc as [|? ? H1 H2]; subst. cbn [obey_all]. specialize (H1 v Hv).
      destruct (obey ew p v) as [v1 e1]. cbn [fst] in H1. rewrite IH by assumption. reflexivity.
    - cbn [obey_all]. rewrite idle_obey by assumption. rewrite IH by assumption.
      destruct (obey_all ew (filter not_idle ps) v). reflexivity.
  Qed.

  Lemma orders_obeyed : forall os pss mem v, Forall order_ok os -> Forall2 packets_for os pss -> tracks mem v ->
    Forall calm (concat pss) /\
    tracks (fst (carry_out_all os mem)) (fst (obey_all ew (concat pss) v)) /\
    snd (obey_all ew (concat pss) v) = snd (carry_out_all os mem).
  Proof.
    induction os as [|o os IH]; intros pss mem v Ho H2 Ht; inversion H2 as [|? ps ? pss' Hp Hr]; subst.
    - cbn [concat obey_all carry_out_all fst snd]. auto.
    - inversion Ho as [|? ? Ho1 Ho2]; subst. cbn [concat carry_out_all].
      rewrite (packets_of_order o ps Ho1 Hp).
      destruct (order_step ew o mem v Ho1 Ht) as [T1 S1]. rewrite obey_all_app. cbn [fst snd].
      destruct (carry_out o mem) as [m1 a]. cbn [fst snd] in T1, S1.
      destruct (IH pss' m1 _ Ho2 Hr T1) as (C & T & S).
      destruct (carry_out_all os m1) as [m2 b]. cbn [fst snd] in *. split; [|split; [exact T|congruence]].
      apply Forall_app. split; [|exact C]. apply Forall_forall. intros q Hq. apply repeat_spec in Hq. subst q.
      apply calm_order. exact Ho1.
  Qed.
End Calm.

(** Accesses of orders are to CVs 1 .. 1024 *)
Lemma orders_in_range : forall os mem, Forall order_ok os -> Forall (allowed all_cvs) (snd (carry_out_all os mem)).
Proof.
  induction os as [|[n d] os IH]; intros mem H; [constructor|]. inversion H as [|? ? [_ Hd] H2]; subst.
  cbn [carry_out_all]. destruct (carry_out (n, d) mem) as [m1 a] eqn:E. specialize (IH m1 H2).
  destruct (carry_out_all os m1) as [m2 b]. cbn [snd] in *. apply Forall_app. split; [|exact IH].
  destruct mem as [c last]. cbn [carry_out] in E.
  assert (Ha : a = [] \/ a = map Told (told c n d) \/
    a = map Access (filter (permitted (cvs_locked (switches c))) (wanted (same last n d) d))).
  { destruct (negb (answers c n)); [left; congruence|]. destruct (negb (on_cvs d)); [right; left; congruence|].
    destruct (negb (n =? 0) && (n =? aval (consist_address c))); [left; congruence|right; right; congruence]. }
  destruct Ha as [-> |[-> | ->]]; [constructor| |].
  - apply Forall_forall. intros x Hx. apply in_map_iff in Hx. destruct Hx as (e & <- & _). exact Logic.I.
  - apply Forall_forall. intros x Hx. apply in_map_iff in Hx. destruct Hx as (y & <- & Hy).
    apply filter_In in Hy. destruct Hy as [Hy _]. cbn [allowed]. intros _. unfold all_cvs.
    destruct d; cbn [wanted] in Hy; try contradiction; cbn [cmd_ok snd] in Hd;
      try destruct (same last n _); cbn [In] in Hy;
      repeat (destruct Hy as [<-|Hy]; [cbn [target]; lia|]); contradiction.
Qed.

(** ** Queue of the station *)

Lemma waiting_all : forall c h, history_ok c h -> exists ws, queued h = sent h ++ ws.
Proof.
  intros c h. induction h as [|e h IH] using rev_ind; intros H; [exists []; reflexivity|].
  destruct (H h e [] eq_refl) as (ws & Hw & Hj). rewrite queued_app, sent_app, Hw.
  destruct e as [bs|bs|[bs|]|x].
  - exists (ws ++ [bs]). cbn [queued sent flat_map List.app]. rewrite app_nil_r, app_assoc. reflexivity.
  - exists ws. cbn [queued sent flat_map List.app]. rewrite !app_nil_r. reflexivity.
  - destruct Hj as [Hj _]. destruct ws as [|w ws]; [discriminate|]. assert (w = bs) by (cbn in Hj; congruence). subst w.
    exists ws. cbn [queued sent flat_map List.app]. rewrite app_nil_r, <- app_assoc. reflexivity.
  - exists ws. cbn [queued sent flat_map List.app]. rewrite !app_nil_r. reflexivity.
  - exists ws. cbn [queued sent flat_map List.app]. rewrite !app_nil_r. reflexivity.
Qed.

Lemma finished_prefix : forall c ps n, exists r, finished c ps n ++ r = map bytes ps.
Proof.
  intros c ps. induction ps as [|p ps IH]; intros n; [exists []; reflexivity|]. cbn [finished map].
  destruct (n <? _)%nat; [exists (bytes p :: map bytes ps); reflexivity|].
  match goal with |- context [finished c ps ?k] => destruct (IH k) as (r & Hr) end.
  exists r. cbn [List.app]. rewrite Hr. destruct p; reflexivity.
Qed.

Lemma started_sent : forall h, filter not_idle (map bytes (started h)) = filter not_idle (sent h).
Proof.
  induction h as [|e h IH]; [reflexivity|].
  change (e :: h) with ([e] ++ h). rewrite started_app, sent_app.
  rewrite map_app, !filter_app, IH. f_equal. destruct e as [| |[|]|]; reflexivity.
Qed.

Lemma frame_not_idle : forall o, order_ok o -> not_idle (packet_of o) = true.
Proof.
  intros [n d] [Hn _]. cbn [fst] in Hn. unfold not_idle, packet_of, frame, wire_head. cbn [fst snd].
  apply negb_true_iff, Z.eqb_neq. destruct (n <=? 127) eqn:E; cbn [List.app nth]; lia.
Qed.

Lemma filter_all : forall (A : Type) (f : A -> bool) l, Forall (fun x => f x = true) l -> filter f l = l.
Proof. intros A f l H. induction H as [|x l Hx H IH]; [reflexivity|]. cbn [filter]. rewrite Hx, IH. reflexivity. Qed.

Lemma orders_not_idle : forall os pss, Forall order_ok os -> Forall2 packets_for os pss ->
  filter not_idle (concat pss) = concat pss.
Proof.
  intros os pss Ho H. apply filter_all. induction H as [|o ps os pss Hp H IH]; [constructor|].
  inversion Ho as [|? ? H1 H2]; subst. cbn [concat]. apply Forall_app. split; [|exact (IH H2)].
  rewrite (packets_of_order o ps H1 Hp). apply Forall_forall. intros q Hq. apply repeat_spec in Hq. subst q.
  apply frame_not_idle. exact H1.
Qed.

Section Chain.
  Context {I : Type} (E : Env I) (m : I -> Z -> Z) (able : access -> Prop) (Hk : keeps_cvs able E m).
  Implicit Types s : st I.

  (** Decoder alone *)
  Lemma orders_seen : forall dos i s es os pss, run E (OInit :: dos) (st0 i) = Ok (tt, s, es) -> logons dos listener0 = [] ->
    Forall order_ok os -> Forall2 packets_for os pss -> filter not_idle (SpecRx.taken dos listener0) = concat pss ->
    let x := carry_out_all os (m i, None) in Forall (allowed able) (snd x) ->
    seen_in es = snd x /\ (forall a, m (Rx.app s) a = fst (fst x) a).
  Proof.
    intros dos i s es os pss Hrun Hlo Ho Hp Hf x Hal. subst x.
    assert (Ht : tracks (m i, None) (new_view (m i))) by (split; [|split]; reflexivity).
    destruct (orders_obeyed (e_east_west E) os pss _ _ Ho Hp Ht) as (C & T & S).
    pose proof (layout E m able Hk dos i s es Hrun Hlo) as HL. cbv zeta in HL.
    rewrite without_idle in HL; [|reflexivity|rewrite Hf; exact C]. rewrite Hf, S in HL.
    destruct (HL Hal) as (H1 & H2 & _). split; [exact H1|].
    intros a. rewrite H2. rewrite (proj1 (proj2 T)). reflexivity.
  Qed.

  Lemma orders_carried : forall c ops xs tx i dos s es,
    config_ok c -> Forall plain_op ops -> (forall bs, In (TBytes bs) ops -> packet_ok bs) ->
    tx_run (TInit c :: ops) (tx_init_state 4) = Ok ((None, []) :: xs, tx) ->
    filter is_receive dos = map OReceive (map fst (intervals xs)) -> ~ In ODisable dos ->
    never_full dos listener0 -> run E (OInit :: dos) (st0 i) = Ok (tt, s, es) ->
    exists h, flat_map call_of h = ops /\ flat_map result_of h = xs /\ history_ok c h /\
      forall os pss rest, Forall order_ok os -> Forall2 packets_for os pss -> queued h = concat pss ++ rest ->
        length (filter not_idle (SpecRx.taken dos listener0)) = length (concat pss) ->
        let x := carry_out_all os (m i, None) in Forall (allowed able) (snd x) ->
        seen_in es = snd x /\ (forall a, m (Rx.app s) a = fst (fst x) a).
  Proof.
    intros c ops xs tx i dos s es Hc Hops Hpk Htx Hdos Hnd Hnf Hrun.
    assert (Hnf1 : never_full (OInit :: dos) listener0).
    { intros [|a os1] os2 He; [cbn; lia|]. cbn [List.app] in He. inversion He; subst.
      exact (Hnf os1 os2 eq_refl). }
    assert (Hnd1 : ~ In ODisable (OInit :: dos)) by (intros [H|H]; [discriminate|exact (Hnd H)]).
    destruct (end_to_end E c ops xs tx i (OInit :: dos) s es Hc Hops Hpk Htx Hdos Hnd1 Hnf1 Hrun)
      as (h & H1 & H2 & H3 & H4 & H5).
    exists h. split; [exact H1|]. split; [exact H2|]. split; [exact H3|].
    intros os pss rest Ho Hp Hq Hlen x Hal. subst x. apply (orders_seen dos i s es os pss Hrun); try assumption.
    { exact (station_no_logon E c ops xs tx i (OInit :: dos) s es Hc Hops Hpk Htx Hdos Hnd1 Hnf1 Hrun). }
    destruct (waiting_all c h H3) as (ws & Hws).
    destruct (finished_prefix c (None :: started h) (length (ticks h))) as (r & Hr).
    rewrite <- H4, H5 in Hr. cbn [map] in Hr.
    assert (Hfil : filter not_idle (SpecRx.taken (OInit :: dos) listener0 ++ r_deque (rxs s) ++ r) = filter not_idle (sent h)).
    { rewrite app_assoc, Hr. cbn [filter]. rewrite started_sent. reflexivity. }
    assert (Hall : exists r', filter not_idle (SpecRx.taken dos listener0) ++ r' = concat pss ++ filter not_idle rest).
    { rewrite <- (orders_not_idle os pss Ho Hp), <- filter_app, <- Hq, Hws, filter_app, <- Hfil.
      rewrite filter_app. eexists. rewrite <- app_assoc. reflexivity. }
    destruct Hall as (r' & Hall).
    assert (Hn := f_equal (firstn (length (concat pss))) Hall).
    rewrite firstn_app, <- Hlen, Nat.sub_diag, firstn_all, firstn_O, app_nil_r in Hn.
    rewrite Hn, firstn_app, Hlen, Nat.sub_diag, firstn_all, firstn_O, app_nil_r. reflexivity.
  Qed.
End Chain.
