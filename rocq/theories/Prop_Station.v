(** A command station and a decoder that keeps up with it: nothing undefined, nothing lost,
    everything obeyed *)
From Verif Require Import Prelude Address SpecCodec SpecTx Tx CodecProofs2 RxState Rx SpecRx SpecExec SpecConf SpecCv SpecBidi SpecSafe Toy
  SpecLayout SpecLayout2 LayoutWitness SpecStation StationProofs2 StationProofs4 StationWitness.

(** * C78 *)

(** Whatever the station is asked and whatever the calls in between: its calls are
    defined, and the decoder at the other end makes no undefined step either, if its
    queue never fills up, the application keeps CV1 short, its clock does not run
    backwards and channel 2 is only sent between packets *)
Theorem C78_defined : forall (I : Type) (E : Env I) (time : I -> Z), short_cv1 E -> clock E time ->
  forall c ops i, 0 <= time i -> config_ok c -> Forall plain_op ops ->
  (forall bs, In (TBytes bs) ops -> packet_ok bs /\ complete bs) ->
  exists xs tx, tx_run (TInit c :: ops) (tx_init_state 4) = Ok ((None, []) :: xs, tx) /\
  forall dos, filter is_receive dos = map OReceive (map fst (intervals xs)) -> ~ In ODisable dos ->
    never_full dos listener0 -> on_time dos -> exists s es, run E (OInit :: dos) (st0 i) = Ok (tt, s, es).
Proof. exact @station_defined. Qed.
Print Assumptions C78_defined.

(** The same without any condition on the queue, for a decoder that calls execute() among
    any 76 durations in a row: it obeys the packets finished on the track, in order, all
    but the last one at most *)
Theorem C78_obeyed : forall (I : Type) (E : Env I) (m : I -> Z -> Z) able (time : I -> Z),
  keeps_cvs able E m -> short_cv1 E -> clock E time ->
  forall c ops i, 0 <= time i -> config_ok c -> Forall plain_op ops ->
  (forall bs, In (TBytes bs) ops -> packet_ok bs /\ complete bs) ->
  exists h xs tx, tx_run (TInit c :: ops) (tx_init_state 4) = Ok ((None, []) :: xs, tx) /\
  flat_map call_of h = ops /\ flat_map result_of h = xs /\ history_ok c h /\
  forall dos, filter is_receive dos = map OReceive (map fst (intervals xs)) -> ~ In ODisable dos ->
    executes_every 76 dos -> on_time dos ->
    exists s es done left, run E (OInit :: dos) (st0 i) = Ok (tt, s, es) /\
      finished c (None :: started h) (length (ticks h)) = done ++ left /\ (length left <= 1)%nat /\
      let x := obey_all (e_east_west E) done (new_view (m i)) in
      Forall (allowed able) (snd x) ->
      seen_in es = snd x /\ (forall a, m (app s) a = v_cvs (fst x) a) /\
      in_service s = v_service (fst x) /\ page s = v_page (fst x).
Proof. exact @station_obeyed. Qed.
Print Assumptions C78_obeyed.

(** Such an application: it keeps everything but addresses over 127 in CV1 *)
Theorem C78_memory : keeps_cvs sensible careful shown /\ short_cv1 careful /\ clock careful (fun _ => 0).
Proof. exact (conj careful_keeps (conj careful_short careful_clock)). Qed.
Print Assumptions C78_memory.

(** Driving, a CV write, a write to CV1 that is refused *)
Example C78_ex : exists xs tx s es,
  let c := TxConfig 20 57 110 true true in
  let ps := [frame 3 [0x3F; 0x90]; frame 3 [0xEC; 2; 5]; frame 3 [0xEC; 2; 5]] in
  let ops := map TBytes ps ++ repeat TTransmit 600 ++ [TBytes (frame 3 [0xEC; 0; 200]); TBytes (frame 3 [0xEC; 0; 200])]
             ++ repeat TTransmit 500 in
  let dos := prompt 70 70 (map fst (intervals xs)) in
  Forall plain_op ops /\ (forall bs, In (TBytes bs) ops -> packet_ok bs /\ complete bs) /\
  tx_run (TInit c :: ops) (tx_init_state 4) = Ok ((None, []) :: xs, tx) /\
  filter is_receive dos = map OReceive (map fst (intervals xs)) /\ ~ In ODisable dos /\
  executes_every 76 dos /\ on_time dos /\
  run careful (OInit :: dos) (st0 (fun a => if a =? 0 then 3 else 0)) = Ok (tt, s, es) /\
  seen_in es = [Told (EDirection 3 true); Told (ESpeed 3 30); Access (Store 2 5); Access (Store 0 200)] /\
  shown (app s) 0 = 72 /\ shown (app s) 2 = 5.
Proof.
  do 4 eexists. cbv zeta.
  assert (Hin : forall bs, In (TBytes bs) (map TBytes [frame 3 [0x3F; 0x90]; frame 3 [0xEC; 2; 5]; frame 3 [0xEC; 2; 5]] ++
      repeat TTransmit 600 ++ [TBytes (frame 3 [0xEC; 0; 200]); TBytes (frame 3 [0xEC; 0; 200])] ++ repeat TTransmit 500) ->
      bs = frame 3 [0x3F; 0x90] \/ bs = frame 3 [0xEC; 2; 5] \/ bs = frame 3 [0xEC; 0; 200]).
  { intros bs H. rewrite !in_app_iff in H. cbn [map In] in H.
    destruct H as [H|[H|[H|H]]]; [| apply repeat_spec in H; discriminate H| |apply repeat_spec in H; discriminate H];
      repeat (destruct H as [H|H]; [injection H as <-; auto|]); destruct H. }
  split.
  { rewrite !Forall_app. repeat split;
      first [ apply Forall_forall; intros o Ho; apply repeat_spec in Ho; subst o; exact Logic.I
            | repeat (apply Forall_cons; [cbn; lia|]); apply Forall_nil ]. }
  split.
  { intros bs H. apply Hin in H.
    assert (Hp : forall d p, cmd_ok d -> generate (loco 3) d = Ok p -> complete p).
    { intros d p Hd Hg. apply SafeProofs2.generated_complete. apply (gen_loco 3 d p); [lia|exact Hd|exact Hg]. }
    destruct H as [->|[->| ->]].
    - split; [repeat split; try reflexivity; try (cbn; lia); repeat (apply Forall_cons; [unfold byte; cbn; lia|]); apply Forall_nil|].
      apply (Hp (CSpeed126 0x90)); [cbn; unfold byte; lia|reflexivity].
    - split; [repeat split; try reflexivity; try (cbn; lia); repeat (apply Forall_cons; [unfold byte; cbn; lia|]); apply Forall_nil|].
      apply (Hp (CWrite 2 5)); [cbn; unfold byte; lia|reflexivity].
    - split; [repeat split; try reflexivity; try (cbn; lia); repeat (apply Forall_cons; [unfold byte; cbn; lia|]); apply Forall_nil|].
      apply (Hp (CWrite 0 200)); [cbn; unfold byte; lia|reflexivity]. }
  split; [vm_compute; reflexivity|]. split; [apply prompt_receives|]. split; [apply prompt_no_disable|].
  split; [apply gaps_every; vm_compute; reflexivity|]. split; [apply prompt_on_time|].
  split; [vm_compute; reflexivity|]. split; [vm_compute; reflexivity|]. split; vm_compute; reflexivity.
Qed.

(** * C79 *)

(** How often execute() has to be called: among any 76 durations in a row, whatever they
    are and wherever they come from. Then the queue never holds more than one packet. *)
Theorem C79_often_enough : forall os, executes_every 76 os -> never_full os listener0 /\
  (length (l_queue (listen_all os listener0)) <= 1)%nat.
Proof. exact prompt_enough. Qed.
Print Assumptions C79_often_enough.

(** Among any 77 is not enough: with the shortest packets a decoder accepts (three bytes,
    ten preamble bits) and execute() called right behind each packet, where it
    does nothing, the queue fills up and packets are lost *)
Theorem C79_exact : exists os1 os2,
  executes_every 77 os1 /\ ~ never_full os1 listener0 /\
  executes_every 77 os2 /\ os2 = hasty 40 /\ length (heard os2 listener0) = 35%nat.
Proof.
  exists (hasty 31), (hasty 40). destruct too_seldom as (H1 & H2 & H3 & H4).
  split; [exact H1|]. split; [exact H2|]. split; [exact H3|]. split; [reflexivity|exact H4].
Qed.
Print Assumptions C79_exact.

(** The same traffic with execute() behind every 75 durations *)
Example C79_ex :
  let os := prompt 74 74 (concat (repeat (half_bits 58 100 (track_bits 10 [0; 0; 0])) 40)) in
  executes_every 76 os /\ length (heard os listener0) = 40%nat.
Proof. cbv zeta. split; [apply gaps_every; vm_compute; reflexivity|vm_compute; reflexivity]. Qed.

(** * C80 *)

(** Everything ordered is done. A station is given orders at leisure (at least 783
    intervals are transmitted behind each, and 783 more at the end); a decoder calls
    execute() among any 76 durations. Then both make only defined steps, and the
    application has seen exactly the effects of the orders, each once, in order, and its
    CVs are as ordered. *)
Theorem C80_done : forall (I : Type) (E : Env I) (m : I -> Z -> Z) able (time : I -> Z),
  keeps_cvs able E m -> short_cv1 E -> clock E time ->
  forall c os pss ks n i, 0 <= time i -> config_ok c -> Forall order_ok os -> Forall2 packets_for os pss ->
  length ks = length os -> Forall (fun k => (782 < k)%nat) ks -> (782 < n)%nat ->
  Forall (allowed able) (snd (carry_out_all os (m i, None))) ->
  exists xs tx, tx_run (TInit c :: flat_map calls (combine pss ks) ++ repeat TTransmit n) (tx_init_state 4)
                = Ok ((None, []) :: xs, tx) /\
  forall dos, filter is_receive dos = map OReceive (map fst (intervals xs)) -> ~ In ODisable dos ->
    executes_every 76 dos -> on_time dos ->
    exists s es, run E (OInit :: dos) (st0 i) = Ok (tt, s, es) /\
      seen_in es = snd (carry_out_all os (m i, None)) /\
      forall a, m (app s) a = fst (fst (carry_out_all os (m i, None))) a.
Proof. exact @orders_done. Qed.
Print Assumptions C80_done.

(** A speed, a write, a function *)
Example C80_ex : exists xs tx s es pss,
  let os := [(3, CSpeed126 0x90); (3, CWrite 2 5); (3, CF8_F5 3)] in
  let dos := prompt 70 70 (map fst (intervals xs)) in
  let i := fun a => if a =? 0 then 3 else 0 in
  Forall order_ok os /\ Forall2 packets_for os pss /\
  Forall (allowed sensible) (snd (carry_out_all os (shown i, None))) /\
  tx_run (TInit (TxConfig 17 58 100 false true) :: flat_map calls (combine pss [783%nat; 800%nat; 783%nat]) ++ repeat TTransmit 783)
    (tx_init_state 4) = Ok ((None, []) :: xs, tx) /\
  executes_every 76 dos /\
  run careful (OInit :: dos) (st0 i) = Ok (tt, s, es) /\
  seen_in es = [Told (EDirection 3 true); Told (ESpeed 3 30); Access (Store 2 5); Told (EFunction 3 0x1E0 0x60)] /\
  shown (app s) 2 = 5.
Proof.
  do 4 eexists. exists [[frame 3 [0x3F; 0x90]]; [frame 3 [0xEC; 2; 5]; frame 3 [0xEC; 2; 5]]; [frame 3 [0xB3]]]. cbv zeta.
  split. { repeat (apply Forall_cons; [split; cbn; unfold byte; lia|]). apply Forall_nil. }
  split. { repeat (apply Forall2_cons; [eexists; split; reflexivity|]). apply Forall2_nil. }
  split.
  { match goal with |- Forall _ ?x => let y := eval vm_compute in x in change x with y end.
    repeat (apply Forall_cons; [cbn; try exact Logic.I; lia|]). apply Forall_nil. }
  split; [vm_compute; reflexivity|]. split; [apply gaps_every; vm_compute; reflexivity|].
  split; [vm_compute; reflexivity|]. split; vm_compute; reflexivity.
Qed.
