(** Packets of a station are executed in the end *)
From Verif Require Import Prelude Address ZBits SpecCodec SpecTx TxProofs Tx RxState Rx CodecProofs RxLogic SpecRx
  RxBitProofs RxBitProofs2 RxBitProofs3 RxBitProofs4 RxBitProofs5 SpecConf SpecExec SpecCv SpecLayout LayoutProofs4 LayoutProofs5
  SpecLine LineProofs StationProofs TxPreempt SpecTxPreempt TxPreemptProofs
  Preempt SpecPreempt PreemptProofs PreemptProofs2 PreemptProofs4 SpecTorn TornProofs TornProofs2
  PreemptLoop SpecLoop LoopProofs SpecWhole WholeProofs SpecWhole2 WholeProofs2 SpecProgress ProgressProofs.

(** What a main loop has heard after [n] intervals *)
Lemma station_line : forall c xs s0, config_ok c -> (forall bs, In (XCall bs) xs -> packet_ok bs) ->
  tx_init c (tx_init_state 4) = Ok s0 ->
  exists outs g s1 ops h, xrun xs (SIdle, s0) = Ok (outs, (g, s1)) /\ placed xs (in_call g) ops /\
  flat_map SpecTx.call_of h = ops /\ ticks h = outs /\ history_ok c h /\
  forall n ts rs, (n <= length outs)%nat ->
    filter is_receive (loop_made ts rs) = map OReceive (firstn n (map fst outs)) -> ~ In ODisable (loop_made ts rs) ->
    loop_roomy ts rs listener0 ->
    loop_unassigned ts rs listener0 /\ loop_heard ts rs listener0 = finished c (None :: started h) n.
Proof.
  intros c xs s0 Hc Hpk H0. assert (Hl : forall bs, In (XCall bs) xs -> (length bs <= 18)%nat) by (intros bs Hb; apply (Hpk bs Hb)).
  destruct (linear c xs s0 Hc Hl H0) as (outs & g & s1 & ops & os & t & H1 & H2 & H3 & H4 & H5 & _).
  destruct (tx_history c ops Hc H3) as (ys & tx & h & Htx & Hcall & Hres & Hh).
  rewrite H4 in Htx. injection Htx as <- <-. exists outs, g, s1, ops, h.
  split; [exact H1|]. split; [exact H2|]. split; [exact Hcall|].
  assert (Ho : ticks h = outs) by (rewrite H5, <- Hres, intervals_ticks; reflexivity).
  split; [exact Ho|]. split; [exact Hh|]. intros n ts rs Hn Hdos Hnd Hro.
  assert (Hps : Forall (fun p => packet_ok (bytes p)) (None :: started h)).
  { constructor; [exact idle_ok|]. apply Forall_forall. intros p Hp.
    destruct p as [bs|]; [|exact idle_ok]. cbn [bytes]. apply Hpk, (proj1 (placed_calls _ _ _ H2)).
    rewrite <- Hcall. clear - Hp Hh.
    assert (Hq : In bs (queued h)).
    { unfold started in Hp. apply in_flat_map in Hp. destruct Hp as (e & He & Hp).
      destruct e as [| |q|]; try contradiction. destruct Hp as [-> |[]].
      apply in_split in He. destruct He as (h1 & h2 & ->).
      destruct (Hh h1 (Started (Some bs)) h2 eq_refl) as (ws & Hw & Hhd & _).
      rewrite queued_app. apply in_or_app. left. unfold waiting in Hw. rewrite Hw. apply in_or_app. right.
      destruct ws; [discriminate|]. inversion Hhd. left. reflexivity. }
    unfold queued in Hq. apply in_flat_map in Hq. destruct Hq as (e & He & Hq).
    destruct e; try contradiction. destruct Hq as [-> |[]].
    apply in_flat_map. exists (Queued bs). split; [exact He|left; reflexivity]. }
  destruct (ticks_prefix c h Hh) as (rest & Hrest). unfold SpecTx.track in Hrest.
  assert (Hfn : firstn n (map fst outs) = firstn n (map fst (flat_map (on_track c) (None :: started h)))).
  { rewrite <- Ho, <- Hrest, map_app, firstn_app, map_length, Ho.
    replace (n - length outs)%nat with 0%nat by lia. rewrite firstn_O, app_nil_r. reflexivity. }
  set (f0 := Mk_fsm Preamble 0 0 0 false [] false).
  assert (Hb : between f0) by (repeat split).
  assert (HI : Inv (l_heard listener0) f0) by (cbn; auto).
  assert (Hhb : half_bits_in (loop_made ts rs) = halves_of (firstn n (map fst (flat_map (on_track c) (None :: started h)))))
    by (rewrite (half_bits_in_receives _ _ Hdos), Hfn; reflexivity).
  assert (Hcr : snd (crun f0 (half_bits_in (loop_made ts rs))) = finished c (None :: started h) n).
  { rewrite Hhb. apply crun_track; [exact Hc| |exact Hb]. eapply Forall_impl; [|exact Hps].
    intros p (P1 & P2 & P3 & _). split; [exact P1|]. split; [exact P2|exact P3]. }
  assert (Hfi : fits f0 (half_bits_in (loop_made ts rs))) by (rewrite Hhb; apply fits_beginning; assumption).
  assert (Hlo : Forall (fun p => is_logon p = false) (finished c (None :: started h) n)).
  { clear - Hps. revert n Hps. generalize (None :: started h) as ps.
    induction ps as [|p ps IH]; intros n Hps; [constructor|]. inversion Hps as [|? ? P1 P2]; subst. cbn [finished].
    destruct (n <? _)%nat; [constructor|]. constructor; [apply P1|apply IH; exact P2]. }
  rewrite <- Hcr in Hlo. destruct (loop_pure ts rs listener0 f0 HI Hnd Hro Hfi Hlo) as [Hu Hah].
  split; [exact Hu|]. rewrite Hah. exact Hcr.
Qed.

Section Deliver.
  Context {I : Type} (E : Env I).

  Lemma mainloop_app : forall ts1 ts2 s rs1 s1 e1 rs2 s2 e2,
    mainloop E ts1 s = Ok (rs1, s1, e1) -> mainloop E ts2 s1 = Ok (rs2, s2, e2) ->
    mainloop E (ts1 ++ ts2) s = Ok (rs1 ++ rs2, s2, e1 ++ e2) /\ length rs1 = length ts1.
  Proof.
    induction ts1 as [|[[os t] w] ts1 IH]; intros ts2 s rs1 s1 e1 rs2 s2 e2 H1 H2.
    - inversion H1; subst. split; [exact H2|reflexivity].
    - cbn [mainloop] in H1.
      apply bind_inv in H1. destruct H1 as ([] & t1 & f1 & f2 & A1 & H1 & ->).
      apply bind_inv in H1. destruct H1 as (o & t2 & f3 & f4 & A2 & H1 & ->).
      apply bind_inv in H1. destruct H1 as (x & t3 & f5 & f6 & A3 & H1 & ->). inversion H1; subst; clear H1.
      destruct (IH ts2 _ _ _ _ _ _ _ A3 H2) as [B1 B2]. split; [|cbn [length]; rewrite B2; reflexivity].
      cbn [mainloop List.app]. unfold bind at 1. rewrite A1. unfold bind at 1. rewrite A2. unfold bind at 1. rewrite B1. cbn [ret].
      rewrite !app_nil_r, <- !app_assoc. reflexivity.
  Qed.
  Lemma executed_app : forall ts1 ts2 rs1 rs2 l, length rs1 = length ts1 ->
    loop_executed (ts1 ++ ts2) (rs1 ++ rs2) l = loop_executed ts1 rs1 l ++ loop_executed ts2 rs2 (loop_listened ts1 rs1 l).
  Proof.
    induction ts1 as [|[[os t] w] ts1 IH]; intros ts2 [|o rs1] rs2 l H; try discriminate H; [reflexivity|].
    cbn [List.app loop_executed loop_listened]. rewrite IH by (injection H; auto). rewrite <- !app_assoc. reflexivity.
  Qed.
  Lemma made_app : forall ts1 ts2 rs1 rs2, length rs1 = length ts1 -> loop_made (ts1 ++ ts2) (rs1 ++ rs2) = loop_made ts1 rs1 ++ loop_made ts2 rs2.
  Proof.
    induction ts1 as [|[[os t] w] ts1 IH]; intros ts2 [|o rs1] rs2 H; try discriminate H; [reflexivity|].
    cbn [List.app loop_made]. rewrite IH by (injection H; auto). rewrite <- !app_assoc. reflexivity.
  Qed.
  Lemma roomy_app : forall ts1 ts2 rs1 rs2 l, length rs1 = length ts1 -> loop_roomy (ts1 ++ ts2) (rs1 ++ rs2) l -> loop_roomy ts1 rs1 l.
  Proof.
    induction ts1 as [|[[os t] w] ts1 IH]; intros ts2 [|o rs1] rs2 l H K; try discriminate H; [exact Logic.I|].
    cbn [List.app loop_roomy] in *. destruct K as (K1 & K2 & K3). split; [exact K1|]. split; [exact K2|].
    eapply IH; [injection H; auto|exact K3].
  Qed.
  Lemma obeyed_app : forall ew a b v, exists x, snd (obey_all ew (a ++ b) v) = snd (obey_all ew a v) ++ x.
  Proof.
    intros ew. induction a as [|p a IH]; intros b v; [eexists; reflexivity|]. cbn [List.app obey_all].
    destruct (obey ew p v) as [v1 y]. destruct (IH b v1) as (x & Hx). destruct (obey_all ew (a ++ b) v1) as [v2 z]. cbn [snd] in *.
    destruct (obey_all ew a v1) as [v3 z']. cbn [snd] in *. subst z. exists x. apply app_assoc.
  Qed.
  Lemma filter_firstn : forall A (f : A -> bool) x y, filter f x = firstn (length (filter f x)) (filter f (x ++ y)).
  Proof. intros A f x y. rewrite filter_app, firstn_app, Nat.sub_diag, firstn_O, app_nil_r, firstn_all. reflexivity. Qed.

  Context (m : I -> Z -> Z) (able : access -> Prop) (Hk : keeps_cvs able E m).
  Hypothesis deaf : forall i d, e_hook E i (ETransmitBiDi d) = i.

  Theorem delivered : forall c xs s0, config_ok c -> (forall bs, In (XCall bs) xs -> packet_ok bs) ->
    tx_init c (tx_init_state 4) = Ok s0 ->
    exists outs g s1 ops h, xrun xs (SIdle, s0) = Ok (outs, (g, s1)) /\ placed xs (in_call g) ops /\
    flat_map SpecTx.call_of h = ops /\ ticks h = outs /\ history_ok c h /\
    forall before w ts1 ts2 i rs1 s e1 rs2 s' e2, Forall starting before -> Forall (Forall handler) w ->
      Forall (fun t => Forall (Forall handler) (snd t)) (ts1 ++ ts2) ->
      let loop := (before, TInit, w) :: ts1 in
      mainloop E loop (st0 i) = Ok (rs1, s, e1) -> mainloop E ts2 s = Ok (rs2, s', e2) ->
      let made := loop_made (loop ++ ts2) (rs1 ++ rs2) in
      filter is_receive made = map OReceive (map fst outs) -> ~ In ODisable made -> loop_roomy (loop ++ ts2) (rs1 ++ rs2) listener0 ->
      (length (r_deque (rxs s)) <= turns ts2 rs2 (loop_listened loop rs1 listener0))%nat ->
      let sent := finished c (None :: started h) (length (filter is_receive (loop_made loop rs1))) in
      let ps := loop_executed (loop ++ ts2) (rs1 ++ rs2) listener0 in
      (exists more, ps = sent ++ more) /\
      (Forall (allowed able) (snd (obey_all (e_east_west E) ps (new_view (m i)))) ->
       exists more, seen_in (e1 ++ e2) = snd (obey_all (e_east_west E) sent (new_view (m i))) ++ more).
  Proof.
    intros c xs s0 Hc Hpk H0. destruct (station_line c xs s0 Hc Hpk H0) as (outs & g & s1 & ops & h & H1 & H2 & H3 & H4 & H5 & HL).
    exists outs, g, s1, ops, h. repeat (split; [assumption|]).
    intros before w ts1 ts2 i rs1 s e1 rs2 s' e2 Hbe Hwi Hw loop Hr1 Hr2 made Hdos Hnd Hro Ht sent ps.
    destruct (mainloop_app _ _ _ _ _ _ _ _ _ Hr1 Hr2) as [Hr Hlen].
    assert (Hmade : made = loop_made loop rs1 ++ loop_made ts2 rs2) by (apply made_app; exact Hlen).
    assert (Hall : Forall (fun t : list op * task * list (list op) => Forall (Forall handler) (snd t)) (loop ++ ts2)) by (constructor; assumption).
    assert (Hint : Forall (fun t : list op * task * list (list op) => interrupting (snd t)) loop).
    { apply Forall_app in Hall. eapply Forall_impl; [|exact (proj1 Hall)]. intros u. apply handlers_interrupting. }
    set (n := length (filter is_receive (loop_made loop rs1))) in *.
    assert (Hn : (n <= length outs)%nat).
    { apply (f_equal (@length _)) in Hdos. rewrite Hmade, filter_app, app_length, !map_length in Hdos. fold n in Hdos. lia. }
    assert (Hd1 : filter is_receive (loop_made loop rs1) = map OReceive (firstn n (map fst outs))).
    { rewrite (filter_firstn _ is_receive (loop_made loop rs1) (loop_made ts2 rs2)). fold n. rewrite <- Hmade, Hdos, firstn_map. reflexivity. }
    assert (Hnd1 : ~ In ODisable (loop_made loop rs1)) by (intros X; apply Hnd; rewrite Hmade; apply in_or_app; left; exact X).
    destruct (HL n loop rs1 Hn Hd1 Hnd1 (roomy_app _ _ _ _ _ Hlen Hro)) as [_ Hh1].
    pose proof (proj2 (loop_fifo E loop i rs1 s e1 Hint Hr1)) as Hq. rewrite Hh1 in Hq.
    destruct (loop_progress E loop i rs1 s e1 ts2 rs2 s' e2 Hall Hr1 Hr2) as (more & Hm).
    rewrite firstn_all2 in Hm by exact Ht.
    assert (Hps : ps = sent ++ more).
    { unfold ps, sent. rewrite Hq, <- app_assoc, <- Hm. apply executed_app. exact Hlen. }
    split; [exists more; exact Hps|]. intros Hra.
    assert (Hdos' : filter is_receive made = map OReceive (firstn (length outs) (map fst outs)))
      by (rewrite firstn_all2; [exact Hdos|rewrite map_length; lia]).
    destruct (HL (length outs) (loop ++ ts2) (rs1 ++ rs2) (le_n _) Hdos' Hnd Hro) as [Hu _].
    destruct (whole_layout E m able Hk deaf before w (ts1 ++ ts2) i (rs1 ++ rs2) s' (e1 ++ e2) Hbe Hwi Hw Hr Hu Hra) as (A & _).
    rewrite A. change (loop_executed ((before, TInit, w) :: ts1 ++ ts2) (rs1 ++ rs2) listener0) with ps. rewrite Hps. apply obeyed_app.
  Qed.
End Deliver.
