(** Property theorems C125: a decoder without automatic logon. *)
From Verif Require Import Prelude Address SpecCodec RxState Rx SpecRx SpecExec SpecConf SpecCv SpecLayout Toy CvWitness LogonWitness AsyncWitness LayoutWitness
  Preempt SpecPreempt PreemptWitness TornWitness PreemptLoop SpecLoop LoopWitness SpecWhole WholeWitness SpecNoLogon NoLogonProofs3 NoLogonWitness.

(** * C125 *)

(** In a decoder without automatic logon nothing but transmissions happens in the interrupt
    handlers, whatever comes in, logon packets included, after any main loop interrupted
    in every call. Transmitting does not change the application. *)
Theorem C125_packets : forall (I : Type) (E : Env I), never_logs_on E -> (forall a d, e_hook E a (ETransmitBiDi d) = a) ->
  forall ts i outs (s0 : st I) e0 os s' es, Forall (fun t => Forall (Forall handler) (snd t)) ts ->
  mainloop E ts (st0 i) = Ok (outs, s0, e0) -> Forall handler os -> run E os s0 = Ok (tt, s', es) ->
  same_decoder s0 s' /\ commands es = [].
Proof. exact @packets_ignored. Qed.
Print Assumptions C125_packets.

(** Its logon is never on *)
Theorem C125_off : forall (I : Type) (E : Env I), never_logs_on E -> (forall a d, e_hook E a (ETransmitBiDi d) = a) ->
  forall ts i outs (s : st I) es, Forall (fun t => Forall (Forall handler) (snd t)) ts ->
  mainloop E ts (st0 i) = Ok (outs, s, es) -> logon_off s.
Proof. exact @logon_stays_off. Qed.
Print Assumptions C125_off.

(** A decoder that is being offered an address after its main loop *)
Example C125_packets_ex : exists outs s0 e0 s' es, let os := track enable_5 ++ [OBiDi1; OBiDi2] ++ track (assign_to 0xC0 7) ++ [OReceive 58] in
  never_logs_on plain /\ Forall (fun t => Forall (Forall handler) (snd t)) logon_loop /\
  mainloop plain logon_loop (st0 ready_made) = Ok (outs, s0, e0) /\ Forall handler os /\ run plain os s0 = Ok (tt, s', es) /\
  logons os (loop_listened logon_loop outs listener0) = [enable_5; assign_to 0xC0 7].
Proof.
  do 5 eexists. cbv zeta. split; [exact plain_never|]. split; [apply loop_planned_ok; vm_compute; reflexivity|]. split; [vm_compute; reflexivity|].
  split; [vm_compute; repeat constructor|]. split; vm_compute; reflexivity.
Qed.

(** A decoder without automatic logon whose main loop is interrupted in every one of its calls
    is the interpreter [obey_all] of the packets executed: these are the packets queued, in
    order, less those still queued. Unlike in C123 logon packets may come in at any time. *)
Theorem C125_interpreter : forall (I : Type) (E : Env I) (m : I -> Z -> Z) able, keeps_cvs able E m -> never_logs_on E ->
  (forall a d, e_hook E a (ETransmitBiDi d) = a) ->
  forall before w ts i outs s es, Forall starting before -> Forall (Forall handler) w -> Forall (fun t => Forall (Forall handler) (snd t)) ts ->
  mainloop E ((before, TInit, w) :: ts) (st0 i) = Ok (outs, s, es) ->
  let ps := loop_executed ((before, TInit, w) :: ts) outs listener0 in let x := obey_all (e_east_west E) ps (new_view (m i)) in
  Forall (allowed able) (snd x) ->
  seen_in es = snd x /\ (forall a, m (app s) a = v_cvs (fst x) a) /\ in_service s = v_service (fst x) /\ page s = v_page (fst x) /\
  loop_heard ((before, TInit, w) :: ts) outs listener0 = ps ++ r_deque (rxs s).
Proof. exact @quiet_layout. Qed.
Print Assumptions C125_interpreter.

(** Five logon packets come in, three of them in the middle of init() or execute(), two of them assigning an
    address to this very decoder. It is put into a consist and driven all the same. *)
Example C125_ex : exists outs s es,
  let x := obey_all false [join; join; ride] (new_view (fun a => u8 (fixed ready_made a))) in
  keeps_cvs but_28 plain (fun c a => u8 (fixed c a)) /\ never_logs_on plain /\
  Forall starting [OEnable] /\ Forall (fun t => Forall (Forall handler) (snd t)) logon_loop /\
  mainloop plain logon_loop (st0 ready_made) = Ok (outs, s, es) /\
  loop_logons logon_loop outs listener0 = [enable_5; select_1234 0x91; assign_to 0xC0 7; enable_6; assign_to 0xC0 7] /\
  loop_executed logon_loop outs listener0 = [join; join; ride] /\ r_deque (rxs s) = [] /\
  snd x = [Access (Store 18 5); Told (EDirection 5 true); Told (ESpeed 5 30)] /\ Forall (allowed but_28) (snd x).
Proof.
  do 3 eexists. cbv zeta. split; [exact plain_keeps|]. split; [exact plain_never|]. split; [repeat constructor|].
  split; [apply loop_planned_ok; vm_compute; reflexivity|]. split; [vm_compute; reflexivity|].
  split; [vm_compute; reflexivity|]. split; [vm_compute; reflexivity|]. split; [vm_compute; reflexivity|].
  match goal with |- ?a = ?b /\ _ => assert (H : a = b) by (vm_compute; reflexivity) end.
  split; [exact H|]. rewrite H. repeat (apply Forall_cons; [unfold but_28; cbn; try exact Logic.I; lia|]). apply Forall_nil.
Qed.

(** Not so a decoder with automatic logon: the same packets at the same times make it store
    the address assigned and write 0 to CV19, so that it leaves its consist and does not obey the last packet. *)
Theorem C125_needed : exists outs s es,
  let x := obey_all false [join; join; ride] (new_view (fun a => u8 (ready_made a))) in
  ~ never_logs_on toy /\ keeps_cvs all_cvs toy (fun c a => u8 (c a)) /\ mainloop toy logon_loop (st0 ready_made) = Ok (outs, s, es) /\
  loop_executed logon_loop outs listener0 = [join; join; ride] /\ Forall (allowed all_cvs) (snd x) /\
  seen_in es <> snd x /\ app s 18 = 0 /\ v_cvs (fst x) 18 = 5 /\ app s 65300 = 7.
Proof. exact logon_disturbs. Qed.
Print Assumptions C125_needed.
