(** The example examples/repl with a user who waits *)
From Verif Require Import Prelude Address Packets SpecCodec SpecTx Tx CodecProofs2 RxState Rx SpecRx SpecExec SpecConf SpecCv
  SpecLayout SpecLayout2 SpecStation Repl SpecRepl ReplProofs ReplProofs4 ReplWitness ReplProofs6 ReplProofs7 ReplProofs8 ReplWitness2.

(** * C83 *)

(** A session is defined, and the queue of the decoder never fills up, if the arguments are
    the documented ones, addresses and CV1 stay at or below 127, the decoder task is ready
    first and gets to run among any 76 intervals in a row *)
Theorem C83_defined : forall os, every_command documented os -> every_command short_address os -> every_command leaves_cv1 os ->
  ready_first os -> attentive os -> exists p out, repl_run os repl0 = Done (p, out) /\ Forall inside (o_calls out) /\ keeps_up os.
Proof. exact repl_defined. Qed.
Print Assumptions C83_defined.

(** If moreover the user leaves 785 intervals between two commands and 1567 behind the last
    one, nothing is lost and everything typed has been carried out, once, in order *)
Theorem C83_done : forall os, every_command documented os -> every_command short_address os -> every_command leaves_cv1 os ->
  ready_first os -> attentive os -> unhurried os ->
  exists p out, repl_run os repl0 = Done (p, out) /\ o_lost out = [] /\ p_fifo p = [] /\
    let x := carry_out_all (orders_typed 3 os) (shipped, None) in
    seen_in (o_calls out) = snd x /\ (forall a, cvs_in p a = fst (fst x) a).
Proof. exact shipped_done. Qed.
Print Assumptions C83_done.

Example C83_ex : exists p out,
  every_command documented session2 /\ every_command short_address session2 /\ every_command leaves_cv1 session2 /\
  ready_first session2 /\ attentive session2 /\ unhurried session2 /\
  orders_typed 3 session2 = [(3, CSpeed126 170); (3, CWrite 0 5); (5, CWriteBit 2 true 1)] /\
  repl_run session2 repl0 = Done (p, out) /\ o_lost out = [] /\
  seen_in (o_calls out) = [Told (EDirection 3 true); Told (ESpeed 3 82); Access (Store 0 5); Access (StoreBit 2 true 1)] /\
  map (cvs_in p) [0; 2] = [5; 2].
Proof.
  do 2 eexists.
  split. { intros c H. destruct (session2_typed c H) as [->|[->|[->| ->]]]; cbn; lia. }
  split. { intros c H. destruct (session2_typed c H) as [->|[->|[->| ->]]]; cbn; try exact I; lia. }
  split. { intros c H. destruct (session2_typed c H) as [->|[->|[->| ->]]]; cbn; try exact I; lia. }
  split; [apply started_ready|]. split; [apply gaps_attentive; vm_compute; reflexivity|].
  split; [apply waits_unhurried; vm_compute; reflexivity|]. split; [vm_compute; reflexivity|].
  split; [vm_compute; reflexivity|]. split; [vm_compute; reflexivity|]. split; vm_compute; reflexivity.
Qed.
