(** C63, C64: reading outside packets *)
From Verif Require Import Prelude Address Packets SpecCodec CodecProofs2 RxState Rx SpecRx SpecExec SpecConf SpecCv SpecLogon SpecBidi SpecSafe SafeProofs SafeProofs2
  Toy CvWitness LogonWitness SafeWitness.

(** * C63 *)

(** Any history of calls in which all packets come from the generators is defined: nothing is
    read outside a packet, no buffer overflows, no assertion fails *)
Theorem C63_history : forall I (E : Env I) time, short_cv1 E -> clock E time -> forall i os, 0 <= time i -> orderly generated os ->
  exists s es, run E os (st0 i) = Ok (tt, s, es).
Proof. exact @history_generated. Qed.
Print Assumptions C63_history.

(** Executing generated packets, whatever else has been received before *)
Theorem C63_execute : forall I (E : Env I) time, short_cv1 E -> clock E time -> forall i os s es, 0 <= time i ->
  run E os (st0 i) = Ok (tt, s, es) -> Forall generated (r_deque (rxs s)) -> exists b s' es', execute E s = Ok (b, s', es').
Proof. exact @executes_generated. Qed.
Print Assumptions C63_execute.

(** They have all the bytes that are read, whoever obeys them and however often they come *)
Theorem C63_complete : forall p, generated p -> complete p.
Proof. exact generated_complete. Qed.
Print Assumptions C63_complete.

(** Without the condition on CV1 even init is undefined *)
Theorem C63_cv1_refuted : exists (m : Z -> Z), (forall a, byte (m a)) /\ run toy [OInit] (st0 m) = UB OutOfBounds.
Proof.
  exists (put factory 0 200). split; [|vm_compute; reflexivity].
  intros a. unfold put, factory, byte. repeat match goal with |- context [if ?b then _ else _] => destruct b end; lia.
Qed.
Print Assumptions C63_cv1_refuted.

Example C63_ex : short_cv1 polite /\ clock polite (fun _ => 0) /\ orderly generated day /\ (600 < length day)%nat /\
  match run polite day (st0 factory) with Ok (_, s, es) => app s 2 = 7 /\ In (ESpeed 3 30) es | UB _ => False end.
Proof.
  split; [exact polite_short|]. split; [exact polite_clock|]. split; [exact day_orderly|]. split; [apply Nat.ltb_lt; vm_compute; reflexivity|].
  vm_compute. tauto.
Qed.

(** * C64 *)

(** Full statement: in all reached states the execution of a packet is defined. It is false:
    the checksum of a three byte packet to a long address is taken for an instruction. *)
Theorem C64_refuted : exists s p, reached toy s /\ ready s p [] /\ valid_packet p = true /\ execute toy s = UB OutOfBounds.
Proof.
  exists (after (told_short [0xC5; 0xFA; 0x3F]) at_1530), [0xC5; 0xFA; 0x3F]. split.
  { apply after_reached. vm_compute. reflexivity. }
  split; [split; vm_compute; reflexivity|]. split; vm_compute; reflexivity.
Qed.
Print Assumptions C64_refuted.

(** When exactly: a packet that is not obeyed by a locomotive handler is always executed
    without reading outside; one that is needs [need] bytes, where [k] counts how many
    times in a row it came *)
Theorem C64_exact : forall I (E : Env I) time, short_cv1 E -> clock E time -> forall i os s es p q, 0 <= time i ->
  run E os (st0 i) = Ok (tt, s, es) -> ready s p q ->
  (forall n, ~ obeyed s p n) /\ (exists b s' es', execute E s = Ok (b, s', es')) \/
  exists n k, obeyed s p n /\ nth_in_row s p k /\
    if (need k (is_member s n) (hd 0%Z (body_of p)) <=? length (body_of p))%nat
    then exists s' es', execute E s = Ok (true, s', es') else execute E s = UB OutOfBounds.
Proof. exact @executes_exactly. Qed.
Print Assumptions C64_exact.

(** The same for the logon address, whose packets are executed while they are received *)
Theorem C64_logon_exact : forall I (E : Env I) s t p, hears E s t p -> is_logon p = true -> undamaged p ->
  if (logon_need p <=? length p)%nat
  then (exists s' es, receive E t s = Ok (tt, s', es)) \/ (receive E t s = UB AssertFailed /\ logon_answers s <> [])
  else receive E t s = UB OutOfBounds.
Proof. exact @logon_exact. Qed.
Print Assumptions C64_logon_exact.

(** A select message cut short, to a decoder with automatic logon switched off *)
Theorem C64_logon_refuted : exists s p, hears toy s 58 p /\ valid_packet p = true /\ logon_enabled (r_conf (rxs s)) = false /\
  receive toy 58 s = UB OutOfBounds.
Proof.
  exists (after ([OInit; OEnable] ++ almost [0xFE; 0xD0; 0x2E]) factory), [0xFE; 0xD0; 0x2E]. split.
  { apply heard_last; vm_compute; reflexivity. }
  split; [reflexivity|]. split; vm_compute; reflexivity.
Qed.
Print Assumptions C64_logon_refuted.

(** A binary state that needs three bytes, with two and with three *)
Example C64_ex : need 1 false 0xC0 = 3%nat /\
  execute toy (after (told_short [3; 0xC0; 0xC3]) factory) = UB OutOfBounds /\
  (exists s', execute toy (after (told_short [3; 0xC0; 0x81; 0x42]) factory) = Ok (true, s', [])) /\
  logon_need (closed [0xFE; 0xD0; 0x91; 1; 2; 3; 4]) = 7%nat.
Proof. split; [reflexivity|]. split; [vm_compute; reflexivity|]. split; [eexists; vm_compute; reflexivity|reflexivity]. Qed.
