(** Property theorems C121: enable() and disable() while packets come in. *)
From Verif Require Import Prelude Address RxState Rx SpecCodec SpecRx SpecExec SpecConf Toy Preempt SpecPreempt PreemptOff SpecOff RxBitProofs OffProofs OffProofs2 OffProofs3.

(** * C121 *)

(** Without interrupts the steps are the calls *)
Theorem C121_steps : forall (I : Type) (E : Env I) (s : st I),
  flat (pbind enableP (fun _ => Done false)) s = step E OEnable s /\
  flat (pbind disableP (fun _ => Done false)) s = step E ODisable s.
Proof. intros I E s. exact (conj (flat_enable I E s) (flat_disable I E s)). Qed.
Print Assumptions C121_steps.

(** disable() of a decoder in the middle of a packet: the last half bit of the first byte comes
    between its stores. Afterwards a packet with a wrong check byte is obeyed, or else a packet
    with a right one is lost. *)
Theorem C121_forgets_refuted : exists os s es w o s' es' bad ts1 good ts2,
  run toy os (st0 factory) = Ok (tt, s, es) /\ Forall (Forall handler) w /\ length (filter is_receive (concat w)) = 1%nat /\
  preempted toy disableP w s = Ok (o, s', es') /\
  plays ts1 14 bad /\ xor_all bad <> 0 /\
  match run toy (OEnable :: map OReceive ts1 ++ [OReceive 58; OExecute]) s' with
  | Ok (_, _, es2) => In (ESpeed 3 (speed255 126 15)) es2
  | UB _ => False
  end /\
  plays ts2 14 good /\ packet_ok good /\
  match run toy (OEnable :: map OReceive ts2) s' with Ok (_, s2, _) => r_deque (rxs s2) = [] | UB _ => False end.
Proof.
  exists ([OInit; OEnable] ++ map OReceive (firstn 45 (half_bits 58 100 (track_bits 14 [3; 0x3F; 0x90; 0xAC])))). do 2 eexists.
  exists [[]; []; []; [OReceive 58]]. do 3 eexists. exists [3; 0x3F; 0x90; 0xAF], (half_bits 58 100 (track_bits 14 [3; 0x3F; 0x90; 0xAF])),
    [3; 0x3F; 0x90; 0xAC], (half_bits 58 100 (track_bits 14 [3; 0x3F; 0x90; 0xAC])).
  split; [vm_compute; reflexivity|]. split; [repeat constructor|]. split; [reflexivity|]. split; [vm_compute; reflexivity|].
  split; [vm_compute; reflexivity|]. split; [discriminate|]. split; [vm_compute; tauto|].
  split; [vm_compute; reflexivity|]. split; [|vm_compute; reflexivity].
  split; [repeat constructor; unfold byte; lia|]. cbn. repeat split; lia.
Qed.
Print Assumptions C121_forgets_refuted.

(** What holds: if between the stores nothing is received, or one duration that is not the
    second half of a bit of a packet, the interrupted disable() does what it does at one
    moment, undefined behaviour of the interrupts included *)
Theorem C121_serial_partial : forall (I : Type) (E : Env I) i os s es w,
  run E os (st0 i) = Ok (tt, s, es) -> l_on (listen_all os listener0) = true -> Forall (Forall handler) w ->
  harmless (listen_all os listener0) w ->
  exists a b, between_stores w = a ++ b /\
    bind (preempted E disableP w) (fun _ => ret tt) s = run E (before_stores w ++ a ++ ODisable :: b) s.
Proof. intros I E i os s es w H. exact (disable_serial E _ s w (run_refines E os _ _ _ _ (Rl0 i) H)). Qed.
Print Assumptions C121_serial_partial.

(** Whatever comes between: at most one packet is judged wrongly. There is a byte such that the
    next frame is taken if its check sum is that byte, and refused otherwise; the packet after
    it is received. *)
Theorem C121_next : forall (I : Type) (E : Env I) i os s es w o s' es',
  run E os (st0 i) = Ok (tt, s, es) -> l_on (listen_all os listener0) = true -> Forall (Forall handler) w ->
  preempted E disableP w s = Ok (o, s', es') ->
  exists c, byte c /\ forall bs1 n1 ts1 bs2 n2 ts2,
    Forall byte bs1 -> (3 <= length bs1 <= 18)%nat -> is_logon bs1 = false -> (10 <= n1)%nat -> plays ts1 n1 bs1 ->
    packet_ok bs2 -> (10 <= n2)%nat -> plays ts2 n2 bs2 -> (length (r_deque (rxs s')) <= 29)%nat ->
    exists s'', run E (map OReceive (ts1 ++ ts2)) s' = Ok (tt, s'', []) /\
      r_deque (rxs s'') = r_deque (rxs s') ++ (if xor_all bs1 =? c then [bs1] else []) ++ [bs2].
Proof. intros I E i os s es w o s' es' H. exact (disable_next E _ s w o s' es' (run_refines E os _ _ _ _ (Rl0 i) H)). Qed.
Print Assumptions C121_next.

(** enable(), and disable() of a decoder that is not enabled, whatever interrupts them *)
Theorem C121_enable : forall (I : Type) (E : Env I) i os s es w, run E os (st0 i) = Ok (tt, s, es) -> Forall (Forall handler) w ->
  let on := l_on (listen_all os listener0) in
  bind (preempted E enableP w) (fun _ => ret tt) s = run E (nth 0 w [] ++ (if on then [] else nth 1 w []) ++ [OEnable]) s /\
  (on = false -> bind (preempted E disableP w) (fun _ => ret tt) s = run E (nth 0 w [] ++ [ODisable]) s).
Proof.
  intros I E i os s es w H Hw. exact (conj (enable_serial E _ s w (run_refines E os _ _ _ _ (Rl0 i) H) Hw)
    (disable_off E _ s w (run_refines E os _ _ _ _ (Rl0 i) H) Hw)).
Qed.
Print Assumptions C121_enable.

(** disable() in the middle of a bit: the first half of it comes between the stores, with a
    cutout on either side *)
Example C121_ex :
  let os := [OInit; OEnable] ++ map OReceive (firstn 46 (half_bits 58 100 (track_bits 14 [3; 0x3F; 0x90; 0xAC]))) in
  let w := [[]; [OReceive 100]; [OReceive 100]; [OBiDi1]; [OReceive 100; OBiDi2]] in
  l_on (listen_all os listener0) = true /\ harmless (listen_all os listener0) w /\
  match run toy os (st0 factory) with
  | Ok (_, s, _) => match preempted toy disableP w s with
      | Ok (_, s', _) => f_checksum (r_fsm (rxs s)) = 3 /\ f_checksum (r_fsm (rxs s')) = 0 /\
          match run toy (map OReceive (half_bits 58 100 (track_bits 14 [3; 0x3F; 0x91; 0xAD]))) s' with
          | Ok (_, s'', _) => r_deque (rxs s'') = [[3; 0x3F; 0x91; 0xAD]]
          | UB _ => False end
      | UB _ => False end
  | UB _ => False end.
Proof.
  cbv zeta. split; [vm_compute; reflexivity|]. split; [vm_compute; right; reflexivity|]. vm_compute. repeat split; reflexivity.
Qed.

(** The byte that is left over in the refutation above is 3 *)
Example C121_ex2 : match run toy ([OInit; OEnable] ++ map OReceive (firstn 45 (half_bits 58 100 (track_bits 14 [3; 0x3F; 0x90; 0xAC])))) (st0 factory) with
  | Ok (_, s, _) => match preempted toy disableP [[]; []; []; [OReceive 58]] s with
      | Ok (_, s', _) => f_checksum (r_fsm (rxs s')) = 3 /\
          match run toy (map OReceive (half_bits 58 100 (track_bits 14 [3; 0x3F; 0x90; 0xAC]) ++ half_bits 58 100 (track_bits 14 [3; 0x3F; 0x91; 0xAD]))) s' with
          | Ok (_, s'', _) => r_deque (rxs s'') = [[3; 0x3F; 0x91; 0xAD]]
          | UB _ => False end
      | UB _ => False end
  | UB _ => False end.
Proof. vm_compute. split; reflexivity. Qed.
