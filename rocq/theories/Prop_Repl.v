(** The example examples/repl: command station, decoder and user in one process *)
From Verif Require Import Prelude Address Packets SpecCodec SpecTx Tx CodecProofs2 RxState Rx SpecRx SpecExec SpecConf SpecCv
  SpecLayout SpecLayout2 Repl SpecRepl ReplProofs ReplProofs4 ReplProofs8 ReplWitness.

(** * C76 *)

(** Any interleaving of the two tasks and the user, documented arguments, addresses up to
    127: the packets of the commands leave the FIFO in the order typed; each packet either
    is dropped by the station or accepted, and the decoder executes the accepted ones in
    order, with idle packets in between; nothing else is executed *)
Theorem C76_delivered : forall os p out, every_command documented os -> every_command short_address os ->
  repl_run os repl0 = Done (p, out) -> keeps_up os ->
  exists pss accepted rest popped, Forall2 packets_for (orders_typed 3 os) pss /\
    concat pss = popped ++ p_fifo p /\ merged accepted (o_lost out) popped /\
    accepted = filter not_idle (o_done out) ++ rest.
Proof. exact repl_delivers. Qed.
Print Assumptions C76_delivered.

(** If no packet was dropped, then as soon as the packets of the first commands [os1] are
    executed the calls into the class Decoder and its array of CVs are those of these
    commands carried out one after the other *)
Theorem C76_obeyed : forall os p out, every_command documented os -> every_command short_address os ->
  repl_run os repl0 = Done (p, out) -> keeps_up os -> o_lost out = [] ->
  forall os1 os2 pss1, orders_typed 3 os = os1 ++ os2 -> Forall2 packets_for os1 pss1 ->
  length (filter not_idle (o_done out)) = length (concat pss1) ->
  let x := carry_out_all os1 (shipped, None) in
  seen_in (o_calls out) = snd x /\ (forall a, cvs_in p a = fst (fst x) a).
Proof. exact shipped_obeys. Qed.
Print Assumptions C76_obeyed.

(** The class Decoder keeps its CVs as C73 to C75 ask for *)
Theorem C76_memory : keeps_cvs all_cvs repl_env cvs_of.
Proof. exact repl_memory. Qed.
Print Assumptions C76_memory.

(** A speed and a write of CV3 typed at once *)
Example C76_ex : exists p out pss,
  repl_run session1 repl0 = Done (p, out) /\ every_command documented session1 /\ every_command short_address session1 /\
  keeps_up session1 /\ o_lost out = [] /\
  orders_typed 3 session1 = [(3, CSpeed126 170); (3, CWrite 2 5)] /\
  Forall2 packets_for [(3, CSpeed126 170); (3, CWrite 2 5)] pss /\
  length (filter not_idle (o_done out)) = length (concat pss) /\
  seen_in (o_calls out) = [Told (EDirection 3 true); Told (ESpeed 3 82); Access (Store 2 5)] /\ cvs_in p 2 = 5.
Proof.
  destruct session1_run as (p & out & H1 & H2 & H3 & H4 & H5). exists p, out.
  exists [[frame 3 [0x3F; 170]]; [frame 3 [0xEC; 2; 5]; frame 3 [0xEC; 2; 5]]].
  assert (Hc : forall c, In (RType c) session1 -> c = RSpeed true 42 \/ c = RWriteByte 2 5).
  { intros c. unfold session1, turns. cbn [In]. intros [H|[H|[H|H]]]; [discriminate H|left; congruence|right; congruence|].
    exfalso. apply in_concat in H. destruct H as (l & Hl & Hin). apply repeat_spec in Hl. subst l.
    destruct Hin as [H|[H|[]]]; discriminate H. }
  split; [exact H1|]. split. { intros c Hin. destruct (Hc c Hin) as [->| ->]; cbn [documented]; lia. }
  split. { intros c Hin. destruct (Hc c Hin) as [->| ->]; exact I. }
  split; [exact session1_keeps_up|]. split; [exact H2|]. split; [vm_compute; reflexivity|].
  split. { repeat (apply Forall2_cons; [eexists; split; reflexivity|]). apply Forall2_nil. }
  split; [rewrite H3; reflexivity|]. split; assumption.
Qed.

(** * C77 *)

(** A command goes to the locomotive chosen exactly for addresses up to 127: the menu
    changes the number of the address, not its type *)
Theorem C77_address : forall c a, documented c -> (forall n, meant c n <> []) -> 0 <= a <= 10239 ->
  exists ps, repl_packets (Addr a ATShort false) c = Ok ps /\
    (Forall2 packets_for (meant c a) [ps] <-> a <= 127).
Proof. exact address_exact. Qed.
Print Assumptions C77_address.

(** It goes to another locomotive, the number modulo 256 if that is at most 127 *)
Theorem C77_other : forall c a, documented c -> (forall n, meant c n <> []) -> 0 <= a -> a mod 256 <= 127 ->
  exists ps, repl_packets (Addr a ATShort false) c = Ok ps /\ Forall2 packets_for (meant c (a mod 256)) [ps].
Proof. exact address_mod. Qed.
Print Assumptions C77_other.

Example C77_ex : documented (RSpeed true 42) /\ (forall n, meant (RSpeed true 42) n <> []) /\
  repl_packets (Addr 259 ATShort false) (RSpeed true 42) = Ok [frame 3 [0x3F; 170]] /\
  generate (loco 259) (CSpeed126 170) = Ok (frame 259 [0x3F; 170]) /\ frame 259 [0x3F; 170] = [193; 3; 0x3F; 170; 87].
Proof. split; [cbn; lia|]. split; [intros n; discriminate|]. split; [reflexivity|]. split; reflexivity. Qed.

(** The speed typed for locomotive 259 is obeyed by the decoder, locomotive 3 *)
Theorem C77_address_refuted : exists p out,
  repl_run (RStart :: RType (RAddress 259) :: RType (RSpeed true 42) :: turns 400) repl0 = Done (p, out) /\
  o_lost out = [] /\ seen_in (o_calls out) = [Told (EDirection 3 true); Told (ESpeed 3 82)].
Proof. exact wrong_loco. Qed.
Print Assumptions C77_address_refuted.

(** Seven CVs written in quick succession: one is written, eleven of the fourteen packets
    are dropped without notice *)
Theorem C77_lost_refuted : exists p out,
  repl_run (RStart :: seven ++ turns 1200) repl0 = Done (p, out) /\ p_fifo p = [] /\
  length (o_lost out) = 11%nat /\ keeps_up (RStart :: seven ++ turns 1200) /\
  seen_in (o_calls out) = [Access (Store 9 5)] /\
  map (cvs_in p) [9; 10; 11; 12; 13; 14; 15] = [5; 0; 0; 0; 0; 0; 0].
Proof. exact lost_commands. Qed.
Print Assumptions C77_lost_refuted.

(** The command station task is faster than the decoder task: uncaught exception *)
Theorem C77_start_refuted : exists os, every_command documented os /\ every_command short_address os /\
  repl_run os repl0 = BadFunctionCall.
Proof. exists [RLoop]. split; [exact (none_typed _)|]. split; [exact (none_typed _)|]. exact too_early. Qed.
Print Assumptions C77_start_refuted.

(** Writing 200 to CV1: an array access out of bounds *)
Theorem C77_cv1_refuted : exists os, every_command documented os /\ every_command short_address os /\
  orders_typed 3 os = [(3, CWrite 0 200)] /\ repl_run os repl0 = Undefined OutOfBounds.
Proof. exact cv1_200. Qed.
Print Assumptions C77_cv1_refuted.

(** Reading a CV of locomotive 254: the packet is taken for a logon packet and read out of
    bounds *)
Theorem C77_logon_refuted : exists os, every_command documented os /\
  orders_typed 3 os = [(254, CVerify 7 0)] /\ repl_run os repl0 = Undefined OutOfBounds.
Proof. exact address_254. Qed.
Print Assumptions C77_logon_refuted.
