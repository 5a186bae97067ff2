(** What the decoder knows of the application, and CV memories that may hold anything *)
From Verif Require Import Prelude Address Packets SpecCodec SpecTx Tx CodecProofs2 RxState Rx SpecRx SpecExec SpecConf SpecCv SpecBidi SpecSafe Toy
  SpecLayout SpecLayout2 LayoutWitness Repl SpecRepl SpecStation StationWitness ReplProofs ReplProofs5 SpecAlike AlikeProofs AlikeProofs2
  AlikeWitness.

(** * C81 *)

(** Two applications that answer the same calls the same: the decoder makes the same calls
    with the same arguments in the same order and is in the same state afterwards. The
    answers need to agree only on the calls that are made ([ok]). *)
Theorem C81_alike : forall (I1 I2 : Type) (E1 : Env I1) (E2 : Env I2) (R : I1 -> I2 -> Prop) (ok : event -> Prop),
  agree E1 E2 R ok -> forall os i j t es, R i j -> run E2 os (st0 j) = Ok (tt, t, es) -> Forall ok es ->
  exists s, run E1 os (st0 i) = Ok (tt, s, es) /\ rxs s = rxs t /\ pending s = pending t /\ R (app s) (app t).
Proof. exact @runs_alike. Qed.
Print Assumptions C81_alike.

(** If they agree on all calls, both runs are undefined or none is *)
Theorem C81_undefined : forall (I1 I2 : Type) (E1 : Env I1) (E2 : Env I2) (R : I1 -> I2 -> Prop),
  agree E1 E2 R (fun _ => True) -> forall os i j, R i j ->
  forall r, run E1 os (st0 i) = UB r <-> run E2 os (st0 j) = UB r.
Proof. exact @undefined_alike. Qed.
Print Assumptions C81_undefined.

(** CVs in an array or in a list of everything written; with or without access to bits *)
Example C81_ex : exists t t2 es,
  agree logbook toy kept (fun _ => True) /\ agree bytewise toy eq no_bits /\ kept [] factory /\
  run toy written (st0 factory) = Ok (tt, t, es) /\ Forall no_bits es /\ In (EWriteCv 2 5 5) es /\ In (ESpeed 3 30) es /\
  run logbook written (st0 []) = Ok (tt, t2, es) /\ app t2 = [(2, 5)] /\ app t 2 = 5 /\
  exists t3 es3 t4 es4, run toy written_bit (st0 factory) = Ok (tt, t3, es3) /\ ~ Forall no_bits es3 /\
    run bytewise written_bit (st0 factory) = Ok (tt, t4, es4) /\ es3 <> es4.
Proof.
  do 3 eexists. split; [exact logbook_agrees|]. split; [exact bytewise_agrees|]. split; [intros a; reflexivity|].
  split; [vm_compute; reflexivity|]. split; [repeat (apply Forall_cons; [exact Logic.I|]); apply Forall_nil|].
  split; [cbn; tauto|]. split; [cbn; tauto|]. split; [vm_compute; reflexivity|]. split; [reflexivity|]. split; [reflexivity|].
  do 4 eexists. split; [vm_compute; reflexivity|]. split.
  - intros H. rewrite Forall_forall in H. exact (H (EWriteCvBit 2 true 1 true) ltac:(cbn; tauto)).
  - split; [vm_compute; reflexivity|discriminate].
Qed.

(** * C82 *)

(** C80 for CV memories that store whatever is written, CV1 included: enough that CV1 is at
    most 127 and the orders leave it there *)
Theorem C82_done : forall (I : Type) (E : Env I) (m : I -> Z -> Z) able (time : I -> Z),
  keeps_cvs able E m -> clock E time ->
  forall c os pss ks n i, 0 <= time i -> m i 0 < 128 -> config_ok c -> Forall order_ok os -> Forall2 packets_for os pss ->
  length ks = length os -> Forall (fun k => (782 < k)%nat) ks -> (782 < n)%nat ->
  Forall (allowed (fun x => able x /\ sensible x)) (snd (carry_out_all os (m i, None))) ->
  exists xs tx, tx_run (TInit c :: flat_map calls (combine pss ks) ++ repeat TTransmit n) (tx_init_state 4)
                = Ok ((None, []) :: xs, tx) /\
  forall dos, filter is_receive dos = map OReceive (map fst (intervals xs)) -> ~ In ODisable dos ->
    executes_every 76 dos -> on_time dos ->
    exists s es, run E (OInit :: dos) (st0 i) = Ok (tt, s, es) /\
      seen_in es = snd (carry_out_all os (m i, None)) /\
      forall a, m (app s) a = fst (fst (carry_out_all os (m i, None))) a.
Proof. exact @short_orders_done. Qed.
Print Assumptions C82_done.

(** The CVs of the example examples/repl: not [short_cv1]; another address, then a write at it *)
Example C82_ex : exists xs tx s es pss,
  let os := [(3, CWrite 0 5); (5, CWriteBit 2 true 1); (3, CWrite 2 77)] in
  let dos := prompt 70 70 (map fst (intervals xs)) in
  keeps_cvs all_cvs repl_env cvs_of /\ clock repl_env (fun _ => 0) /\ ~ short_cv1 repl_env /\ cvs_of repl_cvs 0 = 3 /\
  Forall order_ok os /\ Forall2 packets_for os pss /\
  Forall (allowed (fun x => all_cvs x /\ sensible x)) (snd (carry_out_all os (cvs_of repl_cvs, None))) /\
  tx_run (TInit (TxConfig 17 58 100 false true) :: flat_map calls (combine pss [783%nat; 800%nat; 783%nat]) ++ repeat TTransmit 783)
    (tx_init_state 4) = Ok ((None, []) :: xs, tx) /\
  executes_every 76 dos /\ run repl_env (OInit :: dos) (st0 repl_cvs) = Ok (tt, s, es) /\
  seen_in es = snd (carry_out_all os (cvs_of repl_cvs, None)) /\ map (cvs_of (app s)) [0; 2] = map (fst (fst (carry_out_all os (cvs_of repl_cvs, None)))) [0; 2].
Proof.
  do 4 eexists. exists [[frame 3 [0xEC; 0; 5]; frame 3 [0xEC; 0; 5]]; [frame 5 [0xE8; 2; 0xF9]; frame 5 [0xE8; 2; 0xF9]];
    [frame 3 [0xEC; 2; 77]; frame 3 [0xEC; 2; 77]]]. cbv zeta.
  split; [exact repl_memory|]. split; [exact repl_clock|].
  split. { intros H. apply (H (fun _ => 200)). vm_compute. split; discriminate. }
  split; [reflexivity|].
  split. { repeat (apply Forall_cons; [split; cbn; unfold byte; lia|]). apply Forall_nil. }
  split. { repeat (apply Forall2_cons; [eexists; split; reflexivity|]). apply Forall2_nil. }
  split.
  { match goal with |- Forall _ ?x => let y := eval vm_compute in x in change x with y end.
    repeat (apply Forall_cons; [intros _; split; [unfold all_cvs; cbn; lia|cbn; try exact Logic.I; lia]|]). apply Forall_nil. }
  split; [vm_compute; reflexivity|]. split; [apply gaps_every; vm_compute; reflexivity|].
  split; [vm_compute; reflexivity|]. split; vm_compute; reflexivity.
Qed.
