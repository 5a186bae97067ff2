(** A decoder that calls execute() as seldom as a station allows *)
From Verif Require Import Prelude Address ZBits SpecCodec SpecTx TxProofs Tx RxState Rx CodecProofs CodecProofs2 RxLogic SpecRx
  RxBitProofs RxBitProofs2 RxBitProofs3 RxBitProofs4 RxBitProofs5 SpecExec SpecConf SpecCv SpecLogon SpecBidi SpecSafe SafeProofs2
  SpecLayout LayoutProofs4 LayoutProofs5 LayoutProofs6 SpecLayout2 LayoutProofs7 LayoutProofs8 ReplProofs ReplProofs3
  SpecStation StationProofs StationProofs2 StationProofs4 AudibleProofs SpecPace PaceProofs PaceProofs2.

Theorem pace_enough : forall c ops, config_ok c -> Forall plain_op ops -> (forall bs, In (TBytes bs) ops -> packet_ok bs) ->
  exists xs tx, tx_run (TInit c :: ops) (tx_init_state 4) = Ok ((None, []) :: xs, tx) /\
  forall dos, filter is_receive dos = map OReceive (map fst (intervals xs)) -> ~ In ODisable dos -> paced c dos ->
    never_full dos listener0 /\ (length (l_queue (listen_all dos listener0)) <= 1)%nat.
Proof.
  intros c ops Hc Hops Hpk. destruct (tx_history c ops Hc Hops) as (xs & tx & h & Htx & Hcall & Hres & Hh).
  exists xs, tx. split; [exact Htx|]. intros dos Hdos Hnd Hex. rewrite <- Hres, intervals_ticks in Hdos.
  apply (station_pace c h); try assumption. apply Forall_forall. intros bs Hb. apply Hpk. rewrite <- Hcall. apply queued_calls. exact Hb.
Qed.

Section Paced.
  Context {I : Type} (E : Env I) (m : I -> Z -> Z) (able : access -> Prop) (time : I -> Z)
    (Hk : keeps_cvs able E m) (HE : short_cv1 E) (HC : clock E time).

  Theorem pace_obeyed : forall c ops i, 0 <= time i -> config_ok c -> Forall plain_op ops ->
    (forall bs, In (TBytes bs) ops -> packet_ok bs /\ complete bs) ->
    exists h xs tx, tx_run (TInit c :: ops) (tx_init_state 4) = Ok ((None, []) :: xs, tx) /\
    flat_map call_of h = ops /\ flat_map result_of h = xs /\ history_ok c h /\
    forall dos, filter is_receive dos = map OReceive (map fst (intervals xs)) -> ~ In ODisable dos ->
      paced c dos -> on_time dos ->
      exists s es done left, run E (OInit :: dos) (st0 i) = Ok (tt, s, es) /\
        finished c (None :: started h) (length (ticks h)) = done ++ left /\ (length left <= 1)%nat /\
        let x := obey_all (e_east_west E) done (new_view (m i)) in
        Forall (allowed able) (snd x) ->
        seen_in es = snd x /\ (forall a, m (Rx.app s) a = v_cvs (fst x) a) /\
        in_service s = v_service (fst x) /\ page s = v_page (fst x).
  Proof.
    intros c ops i Hi Hc Hops Hpk. destruct (tx_history c ops Hc Hops) as (xs & tx & h & Htx & Hcall & Hres & Hh).
    exists h, xs, tx. split; [exact Htx|]. split; [exact Hcall|]. split; [exact Hres|]. split; [exact Hh|].
    intros dos Hdos Hnd Hex Hon. rewrite <- Hres, intervals_ticks in Hdos.
    assert (Hq : forall bs, In bs (queued h) -> packet_ok bs /\ complete bs).
    { intros bs Hb. apply Hpk. rewrite <- Hcall. apply queued_calls. exact Hb. }
    assert (Hq1 : Forall packet_ok (queued h)) by (apply Forall_forall; intros bs Hb; apply (Hq bs Hb)).
    assert (Hq2 : Forall complete (queued h)) by (apply Forall_forall; intros bs Hb; apply (Hq bs Hb)).
    destruct (station_pace c h dos Hc Hh Hq1 Hdos Hnd Hex) as [Hnf Hle].
    destruct (known_total E time HE HC c h i dos Hi Hc Hh Hq1 Hq2 Hdos Hnd Hnf Hon) as (s & es & Hrun).
    assert (Hnf1 : never_full (OInit :: dos) listener0).
    { intros [|a os1] os2 He; [cbn; lia|]. cbn [List.app] in He. injection He as <- He. exact (Hnf os1 os2 He). }
    assert (Hnd1 : ~ In ODisable (OInit :: dos)) by (intros [H|H]; [discriminate H|exact (Hnd H)]).
    destruct (known_history E c h i (OInit :: dos) s es Hc Hh Hq1 Hdos Hnd1 Hnf1 Hrun) as [Hfin Hlo].
    pose proof (run_refines E (OInit :: dos) listener0 (st0 i) s es (Rl0 i) Hrun) as (_ & Hqu & _).
    exists s, es, (SpecRx.taken dos listener0), (r_deque (rxs s)). split; [exact Hrun|].
    split; [symmetry; exact Hfin|]. split; [rewrite Hqu; exact Hle|]. exact (layout E m able Hk dos i s es Hrun Hlo).
  Qed.
End Paced.
