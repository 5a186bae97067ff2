(** Property theorems C117: addresses told in channel 1 while execute() is interrupted. *)
From Verif Require Import Prelude Address SpecCodec Datagram RxState Rx SpecRx SpecLogon SpecConf SpecBidi Toy CvWitness LogonWitness AsyncWitness
  Preempt SpecPreempt PreemptWitness SpecOffer SpecTell TellProofs3 TellProofs4 TellWitness.

(** * C117 *)

(** One would expect that channel 1 tells whole addresses of the decoder only, however
    executions are interrupted. This is false, see [C117_torn_refuted]. It holds if no
    packet for logon is completed during an execution: whatever was told or still waits are
    pairs of datagrams for the address that was active when an execution began, in the order
    of the executions; none is lost, repeated or split, and at most one pair waits. *)
Theorem C117_pairs_partial : forall (I : Type) (E : Env I) ts i outs (s : st I) es,
  (forall a d, e_hook E a (ETransmitBiDi d) = a) ->
  Forall orderly ts -> session E ts (st0 i) = Ok (outs, s, es) -> no_logon_inside ts outs listener0 ->
  announced (executions E ts (st0 i)) (spoken1 (session_moments E ts (st0 i)) ++ addresses_waiting s) /\
  (length (addresses_waiting s) <= 2)%nat.
Proof. intros I E ts i outs s es HD. exact (tells E HD ts i outs s es). Qed.
Print Assumptions C117_pairs_partial.

(** A detector makes of such a pair the address itself *)
Theorem C117_reads : forall (I : Type) (E : Env I) ts i outs (s : st I) es,
  (forall a d, e_hook E a (ETransmitBiDi d) = a) ->
  Forall orderly ts -> session E ts (st0 i) = Ok (outs, s, es) -> no_logon_inside ts outs listener0 ->
  forall s1 x a hi lo, In (s1, x) (executions E ts (st0 i)) -> active (r_addrs (rxs s1)) = Some a ->
  address_pair (r_addrs (rxs s1)) a hi lo ->
  exists h l, make_data (decode_datagram hi) = Ok (256 * 1 + h) /\ make_data (decode_datagram lo) = Ok (256 * 2 + l) /\
  (same_address a (consist (r_addrs (rxs s1))) -> reading_of h l = Member (aval a mod 128) (arev (consist (r_addrs (rxs s1))))) /\
  (~ same_address a (consist (r_addrs (rxs s1))) -> reading_of h l = Loco (aval a)).
Proof. intros I E ts i outs s es HD. exact (told_reads E HD ts i outs s es). Qed.
Print Assumptions C117_reads.

(** An execution of a packet that finds nothing waiting adds a pair; part of it may be told
    before the execution has ended *)
Theorem C117_prepared : forall (I : Type) (E : Env I) ts i outs s0 e0 os (s : st I) e1 w o s' es,
  (forall a d, e_hook E a (ETransmitBiDi d) = a) ->
  Forall orderly ts -> session E ts (st0 i) = Ok (outs, s0, e0) -> no_logon_inside ts outs listener0 ->
  run E os s0 = Ok (tt, s, e1) ->
  Forall (Forall handler) w -> no_logon (SpecPreempt.served o) (listen_all os (all_listened ts outs listener0)) ->
  preempted E (executeP E) w s = Ok (o, s', es) ->
  forall a, worked_on o <> None -> addresses_waiting s = [] -> channel1_on s = true -> active (r_addrs (rxs s)) = Some a ->
  exists hi lo, address_pair (r_addrs (rxs s)) a hi lo /\ spoken1 (meanwhile E (executeP E) w s) ++ addresses_waiting s' = [hi; lo].
Proof. intros I E ts i outs s0 e0 os s e1 w o s' es HD. exact (told_prepared E HD ts i outs s0 e0 os s e1 w o s' es). Qed.
Print Assumptions C117_prepared.

(** An assignment completed between the two datagrams. The decoder had address 1000 and then
    1234; what it tells is 978, which it never had. *)
Theorem C117_torn_refuted : exists (cvs : Z -> Z) ts outs s es hi lo h l, Forall orderly ts /\ session toy ts (st0 cvs) = Ok (outs, s, es) /\
  spoken1 (session_moments toy ts (st0 cvs)) = [hi; lo] /\ addresses_waiting s = [] /\
  make_data (decode_datagram hi) = Ok (256 * 1 + h) /\ make_data (decode_datagram lo) = Ok (256 * 2 + l) /\ reading_of h l = Loco 978 /\
  Forall (fun m => option_map aval (active (r_addrs (rxs (fst (fst m))))) <> Some 978) (session_moments toy ts (st0 cvs)) /\
  option_map aval (active (r_addrs (rxs s))) = Some 1234 /\
  map (fun x => option_map aval (active (r_addrs (rxs (fst x))))) (executions toy ts (st0 cvs)) = [Some 1000; Some 1234].
Proof. exact torn_pair_told. Qed.
Print Assumptions C117_torn_refuted.

(** The first execution makes the decoder a member of consist 5. Cutouts interrupt the
    executions; in two of them the next packet arrives. Told are 3 and then 5. *)
Example C117_ex : let outs := fst (fst (played told_plan factory)) in let s := snd (fst (played told_plan factory)) in
  Forall orderly told_plan /\ session toy told_plan (st0 factory) = Ok (outs, s, snd (played told_plan factory)) /\
  no_logon_inside told_plan outs listener0 /\
  map worked_on outs = [Some join5; Some go; Some lamp; Some go] /\
  map (fun x => option_map aval (active (r_addrs (rxs (fst x))))) (executions toy told_plan (st0 factory)) = [Some 3; Some 5; Some 5; Some 5] /\
  map (fun d => make_data (decode_datagram d)) (spoken1 (session_moments toy told_plan (st0 factory)) ++ addresses_waiting s) =
    [Ok (256 * 1 + 0); Ok (256 * 2 + 3); Ok (256 * 1 + 96); Ok (256 * 2 + 128 + 5); Ok (256 * 1 + 96); Ok (256 * 2 + 128 + 5)].
Proof.
  cbv zeta. split; [apply orderly_ok; vm_compute; reflexivity|]. split; [apply plays_ok; vm_compute; reflexivity|].
  split; [apply quiet_ok; vm_compute; reflexivity|]. split; [vm_compute; reflexivity|]. split; vm_compute; reflexivity.
Qed.

(** The first of these executions by itself: one datagram of the pair is told before it has
    ended, the other one waits *)
Example C117_ex2 : let s := LogonWitness.after ([OInit; OEnable] ++ arriving [join5]) factory in let r := cut (chatty go) s in
  Forall (Forall handler) (chatty go) /\
  no_logon (SpecPreempt.served (fst (fst r))) (listen_all ([OInit; OEnable] ++ arriving [join5]) listener0) /\
  preempted toy (executeP toy) (chatty go) s = Ok (fst (fst r), snd (fst r), snd r) /\
  worked_on (fst (fst r)) = Some join5 /\ addresses_waiting s = [] /\ channel1_on s = true /\
  option_map aval (active (r_addrs (rxs s))) = Some 3 /\
  length (spoken1 (meanwhile toy (executeP toy) (chatty go) s)) = 1%nat /\ length (addresses_waiting (snd (fst r))) = 1%nat.
Proof.
  cbv zeta. split; [apply handlers_ok; vm_compute; reflexivity|]. split; [apply no_logonb_ok; vm_compute; reflexivity|].
  split; [apply cuts_ok; vm_compute; reflexivity|]. split; [vm_compute; reflexivity|]. split; [vm_compute; reflexivity|].
  split; [vm_compute; reflexivity|]. split; [vm_compute; reflexivity|]. split; vm_compute; reflexivity.
Qed.
