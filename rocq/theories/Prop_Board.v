(** The decoder board of examples/stm32 behind any command station *)
From Verif Require Import Prelude Address SpecCodec SpecTx Tx CodecProofs2 RxState Rx SpecRx SpecExec SpecConf SpecCv SpecLayout SpecLayout2
  SpecStation StationWitness SpecPace PaceProofs PaceProofs2 PaceWitness Stm32 SpecEdges EdgeProofs2 Stm32Proofs SpecBoard BoardProofs BoardProofs2.

(** * C98 *)

(** Any commands to any locomotives, through the two wires of the track and the capture
    unit: the LEDs of the board show the last speed command and F3 *)
Theorem C98_lamps : forall c os pss ks k0 k, config_ok c -> Forall order_ok os -> Forall2 packets_for os pss -> Forall simple_for3 os ->
  length ks = length os -> Forall (fun k => (782 < k)%nat) ks -> (783 < k)%nat ->
  exists xs tx, tx_run (TInit c :: repeat TTransmit k0 ++ flat_map calls (combine pss ks) ++ repeat TTransmit k) (tx_init_state 4)
                = Ok ((None, []) :: xs, tx) /\
  forall since ts dos, Forall2 (off 16) (captured since (intervals xs)) ts -> filter is_receive dos = map OReceive ts ->
    ~ In ODisable dos -> awake 16 c dos -> on_time dos ->
    exists s es, run stm32_env (OInit :: dos) (st0 stm32_cvs) = Ok (tt, s, es) /\
      fold_left show es (false, false) = fold_left (fun l o => lamps o l) os (false, false).
Proof. exact board_lamps. Qed.
Print Assumptions C98_lamps.

(** F3 with a speed, another locomotive's F3 off, F8-F5, stop *)
Example C98_ex : exists pss xs tx s es,
  let os := [(3, CSpeedFunctions 170 8 [255; 255]); (4, CF4_F0 0); (3, CF8_F5 0); (0, CSpeed126 128)] in
  let ts := shaky false (captured 0 (intervals xs)) in let dos := timed 6000 0 ts in
  Forall order_ok os /\ Forall2 packets_for os pss /\ Forall simple_for3 os /\
  tx_run (TInit stm32_config :: repeat TTransmit 200 ++ flat_map calls (combine pss [800%nat; 900%nat; 783%nat; 783%nat]) ++
    repeat TTransmit 784) (tx_init_state 4) = Ok ((None, []) :: xs, tx) /\
  Forall2 (off 16) (captured 0 (intervals xs)) ts /\ filter is_receive dos = map OReceive ts /\ ~ In ODisable dos /\
  awake 16 stm32_config dos /\ on_time dos /\
  run stm32_env (OInit :: dos) (st0 stm32_cvs) = Ok (tt, s, es) /\
  fold_left show es (false, false) = (false, true).
Proof.
  exists [[frame 3 [0x3C; 170; 8; 255; 255]]; [frame 4 [0x80]]; [frame 3 [0xB0]]; [frame 0 [0x3F; 128]]]. do 4 eexists. cbv zeta.
  split. { repeat (apply Forall_cons; [split; cbn; unfold byte; repeat split; try lia; repeat constructor; lia|]). apply Forall_nil. }
  split. { repeat (apply Forall2_cons; [eexists; split; vm_compute; reflexivity|]). apply Forall2_nil. }
  split. { repeat (apply Forall_cons; [intros _; cbn; try exact Logic.I; lia|]). apply Forall_nil. }
  split; [vm_compute; reflexivity|]. split; [apply captured_shaky|]. split; [apply timed_receives|]. split; [apply timed_no_disable|].
  split. { right. exists 6000. split; [vm_compute; discriminate|]. apply within_ok; vm_compute; reflexivity. }
  split; [apply timed_on_time|]. split; vm_compute; reflexivity.
Qed.

(** Commands that write CVs of the board as well: the application sees what an interpreter
    of the commands makes of the table of CVs, and the board has the CVs written *)
Theorem C98_written : forall c os pss ks k0 k, config_ok c -> Forall order_ok os -> Forall2 packets_for os pss ->
  length ks = length os -> Forall (fun k => (782 < k)%nat) ks -> (783 < k)%nat ->
  let x := carry_out_all os (board_memory, None) in Forall board_able (snd x) ->
  exists xs tx, tx_run (TInit c :: repeat TTransmit k0 ++ flat_map calls (combine pss ks) ++ repeat TTransmit k) (tx_init_state 4)
                = Ok ((None, []) :: xs, tx) /\
  forall since ts dos, Forall2 (off 16) (captured since (intervals xs)) ts -> filter is_receive dos = map OReceive ts ->
    ~ In ODisable dos -> awake 16 c dos -> on_time dos ->
    exists s es, run stm32_env (OInit :: dos) (st0 stm32_cvs) = Ok (tt, s, es) /\ seen_in es = snd x /\
      forall a, 0 <= a < 29 -> Rx.app s a mod 256 = fst (fst x) a.
Proof. exact board_written. Qed.
Print Assumptions C98_written.

(** Address 5 is written and used, then CV29 *)
Example C98_ex2 : exists pss xs tx s es,
  let os := [(3, CWrite 0 5); (3, CSpeed126 170); (5, CSpeed126 171); (5, CWrite 28 2); (5, CVerify 2 7)] in
  let ts := shaky false (captured 0 (intervals xs)) in let dos := timed 6000 0 ts in let x := carry_out_all os (board_memory, None) in
  Forall order_ok os /\ Forall2 packets_for os pss /\ Forall board_able (snd x) /\
  tx_run (TInit stm32_config :: repeat TTransmit 200 ++ flat_map calls (combine pss [800%nat; 900%nat; 783%nat; 783%nat; 783%nat]) ++
    repeat TTransmit 784) (tx_init_state 4) = Ok ((None, []) :: xs, tx) /\
  Forall2 (off 16) (captured 0 (intervals xs)) ts /\ filter is_receive dos = map OReceive ts /\ ~ In ODisable dos /\
  awake 16 stm32_config dos /\ on_time dos /\
  run stm32_env (OInit :: dos) (st0 stm32_cvs) = Ok (tt, s, es) /\
  seen_in es = [Access (Store 0 5); Told (EDirection 5 true); Told (ESpeed 5 85); Access (Store 28 2); Access (Check 2 7)] /\
  map (Rx.app s) [0; 2; 28] = [5; 2; 2].
Proof.
  exists [[frame 3 [0xEC; 0; 5]; frame 3 [0xEC; 0; 5]]; [frame 3 [0x3F; 170]]; [frame 5 [0x3F; 171]]; [frame 5 [0xEC; 28; 2]; frame 5 [0xEC; 28; 2]]; [frame 5 [0xE4; 2; 7]]].
  do 4 eexists. cbv zeta.
  split. { repeat (apply Forall_cons; [split; cbn; unfold byte; repeat split; try lia; repeat constructor; lia|]). apply Forall_nil. }
  split. { repeat (apply Forall2_cons; [eexists; split; vm_compute; reflexivity|]). apply Forall2_nil. }
  split. { vm_compute. repeat (apply Forall_cons; [repeat split; discriminate|]). apply Forall_nil. }
  split; [vm_compute; reflexivity|]. split; [apply captured_shaky|]. split; [apply timed_receives|]. split; [apply timed_no_disable|].
  split. { right. exists 6000. split; [vm_compute; discriminate|]. apply within_ok; vm_compute; reflexivity. }
  split; [apply timed_on_time|]. split; [vm_compute; reflexivity|]. split; vm_compute; reflexivity.
Qed.

(** The green LED is lit although the last command was to stop: an emergency stop *)
Theorem C98_estop_refuted : exists pss xs tx s es d,
  let ts := captured 0 (intervals xs) in let dos := timed 6000 0 ts in
  order_ok (3, d) /\ stops d = true /\ Forall2 packets_for [(3, CSpeed126 170); (3, d)] pss /\
  tx_run (TInit stm32_config :: flat_map calls (combine pss [800%nat; 800%nat]) ++ repeat TTransmit 784) (tx_init_state 4) = Ok ((None, []) :: xs, tx) /\
  run stm32_env (OInit :: dos) (st0 stm32_cvs) = Ok (tt, s, es) /\
  seen_in es = [Told (EDirection 3 true); Told (ESpeed 3 82); Told (ESpeed 3 (-1))] /\ fold_left show es (false, false) = (true, false).
Proof.
  exists [[frame 3 [0x3F; 170]]; [frame 3 [0x3F; 129]]]. do 4 eexists. exists (CSpeed126 129). cbv zeta.
  split. { split; cbn; unfold byte; lia. } split; [reflexivity|].
  split. { repeat (apply Forall2_cons; [eexists; split; vm_compute; reflexivity|]). apply Forall2_nil. }
  split; [vm_compute; reflexivity|]. split; [vm_compute; reflexivity|]. split; vm_compute; reflexivity.
Qed.
Print Assumptions C98_estop_refuted.

(** F3 is commanded in a packet that also sets F24 to F31: the yellow LED stays dark *)
Theorem C98_f3_refuted : exists pss xs tx s es f more,
  let ts := captured 0 (intervals xs) in let dos := timed 6000 0 ts in
  order_ok (3, CSpeedFunctions 170 f more) /\ bit_of f 3 = true /\ length more = 3%nat /\ Forall2 packets_for [(3, CSpeedFunctions 170 f more)] pss /\
  tx_run (TInit stm32_config :: flat_map calls (combine pss [800%nat]) ++ repeat TTransmit 784) (tx_init_state 4) = Ok ((None, []) :: xs, tx) /\
  run stm32_env (OInit :: dos) (st0 stm32_cvs) = Ok (tt, s, es) /\ snd (fold_left show es (false, false)) = false.
Proof.
  exists [[frame 3 [0x3C; 170; 8; 0; 0; 0]]]. do 4 eexists. exists 8, [0; 0; 0]. cbv zeta.
  split. { split; cbn; unfold byte; repeat split; try lia; repeat constructor; lia. } split; [reflexivity|]. split; [reflexivity|].
  split. { repeat (apply Forall2_cons; [eexists; split; vm_compute; reflexivity|]). apply Forall2_nil. }
  split; [vm_compute; reflexivity|]. split; vm_compute; reflexivity.
Qed.
Print Assumptions C98_f3_refuted.
