(** Witnesses for the claims about CV access that do not hold *)
From Verif Require Import Prelude Address SpecCodec Packets RxState Rx SpecRx SpecExec SpecConf SpecCv CvProofs2 Toy.

(** [fed] is reached *)
Definition heard (ps : list (list Z)) : list op :=
  [OInit; OEnable] ++ flat_map (fun p => map OReceive (half_bits 58 100 (track_bits 14 p))) ps ++ [OReceive 58].

(** Verification of CV1 = 3, twice, in two sessions *)
Lemma second_session : exists (cvs : Z -> Z) s es, let p := [0x74; 0; 3; 0x77] in
  run toy (heard [[0; 0; 0]; p; p; [0xFF; 0; 0xFF]; [0; 0; 0]; p; p] ++ repeat OExecute 7) (st0 cvs) = Ok (tt, s, es) /\
  request 0x74 0 3 = [Check 0 3] /\ cvs 0 = 3 /\ app s 0 = 3 /\ mode_calls es = [true; false; true] /\ in_service s = true /\
  acks_of es = 1%nat.
Proof.
  exists factory. eexists. eexists. split; [vm_compute; reflexivity|]. repeat split; vm_compute; reflexivity.
Qed.

(** Page register set to 0, register 3 written with 7 *)
Lemma page_zero : exists (cvs : Z -> Z) s es,
  run toy (heard [[0; 0; 0]; [0x7D; 0; 0x7D]; [0x7B; 7; 0x7C]] ++ repeat OExecute 3) (st0 cvs) = Ok (tt, s, es) /\
  accesses es = [Store 4294967295 7].
Proof. exists factory. eexists. eexists. split; [vm_compute; reflexivity|]. vm_compute. reflexivity. Qed.

(** A decoder without an address of its own (CV1 = 0) is assigned the logon address 1000.
    Instruction 0 to 1000 starts service mode. *)
Definition assign_1000 : list Z := [0xFE; 0xE0; 0x91; 0; 0; 0; 0; 0xC3; 0xE8].
Lemma logon_service : exists (cvs : Z -> Z) s es, let p := [0xC3; 0xE8; 0; 0x2B] in
  run toy (heard [closed (assign_1000 ++ [Checksum.crc8 assign_1000]); p] ++ repeat OExecute 2) (st0 cvs) = Ok (tt, s, es) /\
  address_of p = Addr 1000 ATLong false /\ in_service s = true /\ mode_calls es = [true].
Proof.
  exists (put (put factory 0 0) 27 0x83). eexists. eexists. split; [vm_compute; reflexivity|]. repeat split; vm_compute; reflexivity.
Qed.

(** ** For the examples *)

(** State after [n] executions *)
Definition later (n : nat) (s : st (Z -> Z)) : st (Z -> Z) := fst (drained n s).

Lemma long3 : forall (s : st (Z -> Z)) b0 b1 b2 c, in_service s = false -> primary (r_addrs (rxs s)) = Addr 3 ATShort false ->
  aval (consist (r_addrs (rxs s))) = 0 -> aval (logon (r_addrs (rxs s))) = 0 -> Forall byte [b0; b1; b2; c] -> 0xE0 <= b0 < 0xF0 ->
  long_form s [3; b0; b1; b2; c] b0 b1 b2.
Proof.
  intros s b0 b1 b2 c H1 H2 H3 H4 H5 H6. split; [exact H1|]. split; [constructor; [unfold byte; lia|exact H5]|].
  split; [cbn; auto|]. split; [exact H6|]. exists 3, [c]. split; [|split; [|reflexivity]].
  - apply to_own; [discriminate|reflexivity|exact H4|]. left. rewrite H2. split; [left; reflexivity|reflexivity].
  - intros [_ X]. congruence.
Qed.
Lemma short3 : forall (s : st (Z -> Z)) b0 b1 b2 c, in_service s = false -> primary (r_addrs (rxs s)) = Addr 3 ATShort false ->
  aval (consist (r_addrs (rxs s))) = 0 -> aval (logon (r_addrs (rxs s))) = 0 -> Forall byte [b0; b1; b2; c] -> 0xF0 <= b0 ->
  short_form s [3; b0; b1; b2; c] b0 b1 b2.
Proof.
  intros s b0 b1 b2 c H1 H2 H3 H4 H5 H6. split; [exact H1|]. split; [constructor; [unfold byte; lia|exact H5]|].
  split; [cbn; auto|]. split; [exact H6|]. exists 3, [c]. split; [|split; [|reflexivity]].
  - apply to_own; [discriminate|reflexivity|exact H4|]. left. rewrite H2. split; [left; reflexivity|reflexivity].
  - intros [_ X]. congruence.
Qed.
Lemma not_cv : forall (s : st (Z -> Z)) p q, ready s p q -> in_service s = false -> hd 0 (body_of p) < 0xE0 ->
  forall p' q', ready s p' q' -> ~ cv_packet s p'.
Proof.
  intros s p q Hr Hs Hb p' q' Hr' Hc. assert (p' = p) as -> by (destruct Hr, Hr'; congruence).
  unfold cv_packet in Hc. rewrite Hs in Hc. destruct Hc as (_ & n & _ & _ & X). lia.
Qed.

Lemma later_exec : forall s b es, shows s = Some (b, es) -> execute toy s = Ok (b, later 1 s, es).
Proof.
  intros s b es H. unfold later, shows, drained in *. destruct (execute toy s) as [[[b1 s1] e1]|]; [|discriminate].
  cbn [fst]. congruence.
Qed.
Definition defined (s : st (Z -> Z)) : bool := match execute toy s with Ok _ => true | UB _ => false end.
Lemma fed_reached : forall cvs ps,
  match run toy (heard ps) (st0 cvs) with Ok _ => true | UB _ => false end = true -> reached toy (fed cvs ps).
Proof.
  intros cvs ps H. unfold fed. fold (heard ps). destruct (run toy (heard ps) (st0 cvs)) as [[[[] s] es]|] eqn:Er; [|discriminate].
  exists cvs, (heard ps), es. exact Er.
Qed.
Lemma later_reached : forall n s, reached toy s -> reached toy (later n s).
Proof.
  unfold later. induction n as [|n IH]; intros s H; [exact H|]. cbn [drained].
  destruct (execute toy s) as [[[b s1] e1]|] eqn:Ex; [|exact H].
  assert (reached toy s1) as H1 by exact (reached_step toy s OExecute b s1 e1 H Ex).
  specialize (IH s1 H1). destruct (drained n s1). exact IH.
Qed.

(** One execution of the example below *)
Lemma row_next : forall s q n l s' es, let p := [3; 0xEC; 4; 9; 0xE2] in
  ready s p q -> in_service s = false -> primary (r_addrs (rxs s)) = Addr 3 ATShort false ->
  aval (consist (r_addrs (rxs s))) = 0 -> aval (logon (r_addrs (rxs s))) = 0 -> locked s = false ->
  logon_store (r_logon (rxs s)) = false ->
  execute toy s = Ok (true, later 1 s, es) -> in_a_row toy p 4 9 (later 1 s) n l s' ->
  in_a_row toy p 4 9 s (S n) (filter is_writing (accesses es) ++ l) s'.
Proof.
  intros s q n l s' es p H1 H2 H3 H4 H5 H6 H7 H8 H9.
  apply (row_again toy p 4 9 s q 0xEC 4 true (later 1 s) es n l s' H1); [|reflexivity|congruence|exact H7|exact H8|exact H9].
  apply long3; try assumption; [|lia]. repeat (apply Forall_cons; [unfold byte; lia|]). apply Forall_nil.
Qed.

Lemma row_example : let p := [3; 0xEC; 4; 9; 0xE2] in
  let s := fed factory [p; [3; 0x3F; 0x90; 0xAC]; p; p] in
  in_a_row toy p 4 9 s 3 [Store 4 9] (later 1 (later 1 (later 1 (later 1 s)))) /\ reached toy s /\ last_cv_packet s <> p.
Proof.
  cbv zeta. set (p := [3; 0xEC; 4; 9; 0xE2]). set (s := fed factory [p; [3; 0x3F; 0x90; 0xAC]; p; p]).
  split; [|split; [apply fed_reached; vm_compute; reflexivity|vm_compute; discriminate]].
  refine (row_next s [[3; 0x3F; 0x90; 0xAC]; p; p] 2 [Store 4 9] _ [] _ _ _ _ _ _ _ (later_exec _ _ _ _) _);
    [split; vm_compute; reflexivity|vm_compute; reflexivity..|].
  refine (row_other toy p 4 9 (later 1 s) OExecute true (later 1 (later 1 s)) [EDirection 3 true; ESpeed 3 30] 2 _ _ _ (later_exec _ _ _ _) _);
    [intros _; apply (not_cv (later 1 s) [3; 0x3F; 0x90; 0xAC] [p; p]); [split; vm_compute; reflexivity|vm_compute; reflexivity|reflexivity]
    |vm_compute; reflexivity|].
  refine (row_next (later 1 (later 1 s)) [p] 1 [] _ [EWriteCv 4 9 9] _ _ _ _ _ _ _ (later_exec _ _ _ _) _);
    [split; vm_compute; reflexivity|vm_compute; reflexivity..|].
  refine (row_next (later 1 (later 1 (later 1 s))) [] 0 [] _ [EReadCvByte 4 9 9] _ _ _ _ _ _ _ (later_exec _ _ _ _) _);
    [split; vm_compute; reflexivity|vm_compute; reflexivity..|].
  apply row_end.
Qed.
