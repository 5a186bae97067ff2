(** Property theorems C122: storing an assigned address while packets come in. *)
From Verif Require Import Prelude Address SpecCodec RxState Rx SpecRx SpecExec SpecConf SpecCv SpecLogon Toy CvWitness LogonWitness Checksum Packets Preempt SpecPreempt PreemptWitness
  PreemptLoop SpecLoop SpecStored StoredProofs4.

(** * C122 *)

(** Whatever was received, executed and interrupted before, and whatever interrupts come between
    the steps of the execution that stores: afterwards storing is due once more, or the five CVs
    hold what the decoder has been told last. The decoder stays selected. *)
Theorem C122_stored : forall (I : Type) (E : Env I) ts i outs s0 e0 os s e1 w o s' es,
  Forall (fun t => Forall (Forall handler) (snd t)) ts -> mainloop E ts (st0 i) = Ok (outs, s0, e0) -> run E os s0 = Ok (tt, s, e1) ->
  is_selected s = true -> to_store s = true ->
  Forall (Forall handler) w -> preempted E (executeP E) w s = Ok (o, s', es) -> worked_on o <> None ->
  is_selected s' = true /\ (to_store s' = true \/ as_told es s') /\
  (no_logon (served o) (listen_all os (loop_listened ts outs listener0)) -> to_store s' = false).
Proof. exact @stored. Qed.
Print Assumptions C122_stored.

(** So an execution during which no logon packet is completed ends it *)
Theorem C122_in_the_end : forall (I : Type) (E : Env I) ts i outs s0 e0 os s e1 w o s' es,
  Forall (fun t => Forall (Forall handler) (snd t)) ts -> mainloop E ts (st0 i) = Ok (outs, s0, e0) -> run E os s0 = Ok (tt, s, e1) ->
  is_selected s = true -> to_store s = true ->
  Forall (Forall handler) w -> preempted E (executeP E) w s = Ok (o, s', es) -> worked_on o <> None ->
  no_logon (served o) (listen_all os (loop_listened ts outs listener0)) -> to_store s' = false /\ as_told es s'.
Proof.
  intros I E ts i outs s0 e0 os s e1 w o s' es H1 H2 H3 H4 H5 H6 H7 H8 H9.
  destruct (stored E ts i outs s0 e0 os s e1 w o s' es H1 H2 H3 H4 H5 H6 H7 H8) as (_ & [K|K] & L); specialize (L H9); [congruence|auto].
Qed.
Print Assumptions C122_in_the_end.

(** The decoder is assigned address 1000; while it stores it, it is assigned address 1234, and
    storing is due once more with 978 in the CVs. The next execution, interrupted by a packet
    that is no logon packet and by cutouts, stores 1234. *)
Example C122_example : exists outs s0 e0 s e1 o s' es,
  let ts := [(assigned_1000, TExecute, reassigned)] in let os := track go ++ [OReceive 58] in
  Forall (fun t => Forall (Forall handler) (snd t)) ts /\ mainloop toy ts (st0 ready_made) = Ok (outs, s0, e0) /\
  is_selected s0 = true /\ to_store s0 = true /\ map (fun a => last_stored a e0) logon_cvs = [Some 0x12; Some 0x34; Some 5; Some 3; Some 0xD2] /\
  aval (logon (r_addrs (rxs s0))) = 1234 /\
  run toy os s0 = Ok (tt, s, e1) /\ is_selected s = true /\ to_store s = true /\
  Forall (Forall handler) busy /\ preempted toy (executeP toy) busy s = Ok (o, s', es) /\ worked_on o = Some go /\
  (length (served o) > 50)%nat /\ no_logon (served o) (listen_all os (loop_listened ts outs listener0)) /\
  to_store s' = false /\ map (fun a => last_stored a es) logon_cvs = [Some 0x12; Some 0x34; Some 5; Some 4; Some 0xD2].
Proof.
  cbv zeta. do 8 eexists. split; [constructor; [apply handlers_ok; vm_compute; reflexivity|constructor]|]. split; [vm_compute; reflexivity|].
  split; [vm_compute; reflexivity|]. split; [vm_compute; reflexivity|]. split; [vm_compute; reflexivity|]. split; [vm_compute; reflexivity|].
  split; [vm_compute; reflexivity|]. split; [vm_compute; reflexivity|]. split; [vm_compute; reflexivity|].
  split; [apply handlers_ok; vm_compute; reflexivity|]. split; [vm_compute; reflexivity|]. split; [vm_compute; reflexivity|].
  split; [apply Nat.ltb_lt; vm_compute; reflexivity|]. split; [apply no_logonb_ok; vm_compute; reflexivity|]. split; vm_compute; reflexivity.
Qed.

(** That the decoder is selected is needed. It obeys an ASSIGN packet without a SELECT packet
    before it; an ENABLE packet of another command station while it stores then leaves the
    high byte of one station and the low byte of the other in the CVs, and nothing is due. *)
Theorem C122_selection_needed : exists (cvs : Z -> Z) os s e1 w o s' es,
  run toy os (st0 cvs) = Ok (tt, s, e1) /\ is_selected s = false /\ is_assigned s = true /\ to_store s = true /\ new_station s = (0x1234, 5) /\
  Forall (Forall handler) w /\ preempted toy (executeP toy) w s = Ok (o, s', es) /\ worked_on o <> None /\
  to_store s' = false /\ new_station s' = (0x5678, 9) /\ ~ as_told es s' /\
  map (fun a => last_stored a es) logon_cvs = [Some 0x12; Some 0x78; Some 9; Some 3; Some 0xE8].
Proof.
  exists ready_made, (talk [enable_5; assign_to 0xC3 0xE8] ++ track go ++ [OReceive 58]). do 2 eexists.
  exists (repeat [] 18 ++ [track (closed [0xFE; 0xFC; 0x56; 0x78; 9])]). do 3 eexists.
  split; [vm_compute; reflexivity|]. split; [vm_compute; reflexivity|]. split; [vm_compute; reflexivity|]. split; [vm_compute; reflexivity|]. split; [vm_compute; reflexivity|].
  split; [apply handlers_ok; vm_compute; reflexivity|]. split; [vm_compute; reflexivity|]. split; [vm_compute; discriminate|].
  split; [vm_compute; reflexivity|]. split; [vm_compute; reflexivity|]. split; [vm_compute; discriminate|vm_compute; reflexivity].
Qed.
Print Assumptions C122_selection_needed.
