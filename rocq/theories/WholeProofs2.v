(** A station and a main loop, both interrupted all the time *)
From Verif Require Import Prelude Address ZBits SpecCodec SpecTx TxProofs Tx RxState Rx CodecProofs RxLogic SpecRx
  RxBitProofs RxBitProofs2 RxBitProofs3 RxBitProofs4 RxBitProofs5 SpecConf SpecExec SpecCv SpecLayout LayoutProofs4 LayoutProofs5
  SpecLine LineProofs StationProofs TxPreempt SpecTxPreempt TxPreemptProofs
  Preempt SpecPreempt PreemptProofs PreemptProofs2 PreemptProofs4 SpecTorn TornProofs TornProofs2
  PreemptLoop SpecLoop LoopProofs SpecWhole WholeProofs SpecWhole2.

(** What a main loop hears is what was finished on the track *)
Lemma loop_pure : forall ts outs l f, Inv (l_heard l) f -> ~ In ODisable (loop_made ts outs) -> loop_roomy ts outs l ->
  fits f (half_bits_in (loop_made ts outs)) ->
  Forall (fun p => is_logon p = false) (snd (crun f (half_bits_in (loop_made ts outs)))) ->
  loop_unassigned ts outs l /\ loop_heard ts outs l = snd (crun f (half_bits_in (loop_made ts outs))).
Proof.
  induction ts as [|[[os t] w] ts IH]; intros [|o outs] l f HI Hnd Hro Hf Hp; try (split; [exact Logic.I|reflexivity]).
  cbn [loop_made loop_roomy loop_unassigned loop_heard] in *. destruct Hro as (R1 & R2 & R3).
  rewrite !half_bits_in_app in *. apply fits_app in Hf. destruct Hf as [F1 Hf]. rewrite <- crun_mrun in Hf.
  assert (N1 : ~ In ODisable os) by (intros H; apply Hnd, in_or_app; left; exact H).
  assert (N2 : ~ In ODisable (served o)) by (intros H; apply Hnd, in_or_app; right; apply in_or_app; left; exact H).
  assert (N3 : ~ In ODisable (loop_made ts outs)) by (intros H; apply Hnd, in_or_app; right; apply in_or_app; right; exact H).
  destruct (arrived_pure os l f HI N1 R1 F1) as [A1 I1]. rewrite crun_app in *.
  destruct (crun f (half_bits_in os)) as [f1 p1]. cbn [fst snd] in *. rewrite crun_app in *.
  apply fits_app in Hf. destruct Hf as [F2 F3]. rewrite <- crun_mrun in F3.
  destruct (arrived_pure (served o) (listen_all os l) f1 I1 N2 R2 F2) as [A2 I2].
  destruct (crun f1 (half_bits_in (served o))) as [f2 p2]. cbn [fst snd] in *.
  assert (I3 : Inv (l_heard (round os t o l)) f2) by (unfold round; destruct (packet_of t o); exact I2).
  pose proof (IH outs (round os t o l) f2 I3 N3 R3 F3) as K.
  destruct (crun f2 (half_bits_in (loop_made ts outs))) as [f3 p3]. cbn [fst snd] in *.
  apply Forall_app in Hp. destruct Hp as [P1 Hp]. apply Forall_app in Hp. destruct Hp as [P2 P3].
  destruct (K P3) as [K1 K2]. destruct (no_logons p1 P1) as [B1 B2]. destruct (no_logons p2 P2) as [B3 B4].
  rewrite !heard_arrived, !logons_arrived, A1, A2, B1, B2, B3, B4, K2. auto.
Qed.

Section Whole2.
  Context {I : Type} (E : Env I) (m : I -> Z -> Z) (able : access -> Prop) (Hk : keeps_cvs able E m).
  Hypothesis deaf : forall i d, e_hook E i (ETransmitBiDi d) = i.

  Theorem whole_station : forall c xs s0, config_ok c -> (forall bs, In (XCall bs) xs -> packet_ok bs) ->
    tx_init c (tx_init_state 4) = Ok s0 ->
    exists outs g s1 ops h, xrun xs (SIdle, s0) = Ok (outs, (g, s1)) /\ placed xs (in_call g) ops /\
    flat_map SpecTx.call_of h = ops /\ ticks h = outs /\ history_ok c h /\
    forall before w ts i rs s es, Forall starting before -> Forall (Forall handler) w -> Forall (fun t => Forall (Forall handler) (snd t)) ts ->
      let loop := (before, TInit, w) :: ts in
      mainloop E loop (st0 i) = Ok (rs, s, es) ->
      filter is_receive (loop_made loop rs) = map OReceive (map fst outs) -> ~ In ODisable (loop_made loop rs) ->
      loop_roomy loop rs listener0 ->
      finished c (None :: started h) (length outs) = loop_executed loop rs listener0 ++ r_deque (rxs s) /\
      let x := obey_all (e_east_west E) (loop_executed loop rs listener0) (new_view (m i)) in
      Forall (allowed able) (snd x) ->
      seen_in es = snd x /\ (forall a, m (Rx.app s) a = v_cvs (fst x) a) /\
      in_service s = v_service (fst x) /\ page s = v_page (fst x).
  Proof.
    intros c xs s0 Hc Hpk H0. assert (Hl : forall bs, In (XCall bs) xs -> (length bs <= 18)%nat) by (intros bs Hb; apply (Hpk bs Hb)).
    destruct (linear c xs s0 Hc Hl H0) as (outs & g & s1 & ops & os & t & H1 & H2 & H3 & H4 & H5 & _).
    destruct (tx_history c ops Hc H3) as (ys & tx & h & Htx & Hcall & Hres & Hh).
    rewrite H4 in Htx. injection Htx as <- <-. exists outs, g, s1, ops, h.
    split; [exact H1|]. split; [exact H2|]. split; [exact Hcall|].
    assert (Ho : ticks h = outs) by (rewrite H5, <- Hres, intervals_ticks; reflexivity).
    split; [exact Ho|]. split; [exact Hh|]. intros before w ts i rs s es Hbe Hwi Hw loop Hrun Hdos Hnd Hro.
    assert (Hps : Forall (fun p => packet_ok (bytes p)) (None :: started h)).
    { constructor; [exact idle_ok|]. apply Forall_forall. intros p Hp.
      destruct p as [bs|]; [|exact idle_ok]. cbn [bytes]. apply Hpk, (proj1 (placed_calls _ _ _ H2)).
      rewrite <- Hcall. clear - Hp Hh.
      assert (Hq : In bs (queued h)).
      { unfold started in Hp. apply in_flat_map in Hp. destruct Hp as (e & He & Hp).
        destruct e as [| |q|]; try contradiction. destruct Hp as [-> |[]].
        apply in_split in He. destruct He as (h1 & h2 & ->).
        destruct (Hh h1 (Started (Some bs)) h2 eq_refl) as (ws & Hw & Hhd & _).
        rewrite queued_app. apply in_or_app. left. unfold waiting in Hw. rewrite Hw. apply in_or_app. right.
        destruct ws; [discriminate|]. inversion Hhd. left. reflexivity. }
      unfold queued in Hq. apply in_flat_map in Hq. destruct Hq as (e & He & Hq).
      destruct e; try contradiction. destruct Hq as [-> |[]].
      apply in_flat_map. exists (Queued bs). split; [exact He|left; reflexivity]. }
    destruct (ticks_prefix c h Hh) as (rest & Hrest). unfold SpecTx.track in Hrest.
    assert (Hfn : map fst outs = firstn (length outs) (map fst (flat_map (on_track c) (None :: started h)))).
    { rewrite <- Ho, <- Hrest, map_app, firstn_app, map_length, Nat.sub_diag, firstn_O, app_nil_r.
      rewrite firstn_all2; [reflexivity|rewrite map_length; lia]. }
    set (f0 := r_fsm (rxs (st0 i))).
    assert (Hb : between f0) by (repeat split).
    assert (HI : Inv (l_heard listener0) f0) by (cbn; auto).
    assert (Hhb : half_bits_in (loop_made loop rs) = halves_of (firstn (length outs) (map fst (flat_map (on_track c) (None :: started h)))))
      by (rewrite (half_bits_in_receives _ _ Hdos), Hfn; reflexivity).
    assert (Hcr : snd (crun f0 (half_bits_in (loop_made loop rs))) = finished c (None :: started h) (length outs)).
    { rewrite Hhb. apply crun_track; [exact Hc| |exact Hb]. eapply Forall_impl; [|exact Hps].
      intros p (P1 & P2 & P3 & _). split; [exact P1|]. split; [exact P2|exact P3]. }
    assert (Hfi : fits f0 (half_bits_in (loop_made loop rs))) by (rewrite Hhb; apply fits_beginning; assumption).
    assert (Hlo : Forall (fun p => is_logon p = false) (finished c (None :: started h) (length outs))).
    { clear - Hps. revert Hps. generalize (None :: started h) as ps, (length outs) as n.
      induction ps as [|p ps IH]; intros n Hps; [constructor|]. inversion Hps as [|? ? P1 P2]; subst. cbn [finished].
      destruct (n <? _)%nat; [constructor|]. constructor; [apply P1|apply IH; exact P2]. }
    rewrite <- Hcr in Hlo. destruct (loop_pure loop rs listener0 f0 HI Hnd Hro Hfi Hlo) as [Hu Hah].
    split.
    - rewrite <- Hcr, <- Hah. refine (proj2 (loop_fifo E loop i rs s es _ Hrun)). constructor; [apply handlers_interrupting; exact Hwi|].
      eapply Forall_impl; [|exact Hw]. intros u. apply handlers_interrupting.
    - intros x Hra. destruct (whole_layout E m able Hk deaf before w ts i rs s es Hbe Hwi Hw Hrun Hu Hra) as (A & B & C & D & _). auto.
  Qed.
End Whole2.
