(** The conversation of automatic logon (RCN-218): what a decoder answers in the cutout behind
    a logon packet, and the logon of all decoders on the track *)
From Verif Require Import Prelude Address Backoff Datagram SpecCodec RxState Rx SpecRx SpecExec SpecConf SpecCv SpecLogon SpecBidi Toy LogonWitness SpecLayout SpecNode
  NodeWitness SpecSession SessionProofs SessionProofs2 SessionWitness.

(** * C102 *)

(** After any calls [os] that had every logon answer fetched, a logon packet [p] is completed
    and the cutout behind it served, whatever else than receiving goes on between: exactly the
    answer [reply] of the interpreter of C100 is transmitted, its first two bytes in channel 1
    and the other six in channel 2, and nothing is left over *)
Theorem C102_reply : forall (I : Type) (E : Env I) (m : I -> Z -> Z) able, keeps_cvs able E m ->
  forall os t p i mid mid' s es,
  run E (os ++ OReceive t :: mid ++ OBiDi1 :: mid' ++ [OBiDi2]) (st0 i) = Ok (tt, s, es) -> served os ->
  completed (OReceive t) (listen_all os listener0) = Some p -> is_logon p = true -> Forall neutral mid -> Forall neutral mid' ->
  let x := attend_all (e_east_west E) (inputs os listener0) (new_node (m i)) in
  Forall (allowed able) (snd x) ->
  exists s0 e0 e1, run E os (st0 i) = Ok (tt, s0, e0) /\ es = e0 ++ e1 /\
    in_both_channels (reply (bo_count (SpecLogon.pause s0) =? 0) p (fst x)) (SpecBidi.sent e1) /\ logon_answers s = [].
Proof. exact @cutout_reply. Qed.
Print Assumptions C102_reply.

(** The library's own reading of the bytes of both channels gives the number sent *)
Theorem C102_read : forall v ds, 0 <= v < 2 ^ 48 -> in_both_channels (Some v) ds -> make_data (decode_datagram (concat ds)) = Ok v.
Proof. exact read_back. Qed.
Print Assumptions C102_read.

(** ... out of which the station gets the unique ID and the own number *)
Theorem C102_enable : forall id, length id = 4%nat -> Forall byte id ->
  0 <= enable_answer id < 2 ^ 48 /\ unique_id (enable_answer id) = id.
Proof. exact enable_read. Qed.
Print Assumptions C102_enable.

Theorem C102_select : forall n, 0 <= n < 16384 -> 0 <= select_answer n < 2 ^ 48 /\ own_number (select_answer n) = n.
Proof. exact select_read. Qed.
Print Assumptions C102_select.

Theorem C102_assign : 0 <= assign_answer < 2 ^ 48.
Proof. exact assign_range. Qed.
Print Assumptions C102_assign.

(** SELECT and then ASSIGN of the example, behind ENABLE: the answers as the station reads
    them *)
Example C102_ex :
  (exists s es, run toy (until_select ++ OReceive 58 :: [OExecute] ++ OBiDi1 :: [ODatagram []] ++ [OBiDi2]) (st0 ready_made) = Ok (tt, s, es)) /\
  served until_select /\ completed (OReceive 58) (listen_all until_select listener0) = Some (select_1234 145) /\
  is_logon (select_1234 145) = true /\ Forall neutral [OExecute] /\ Forall neutral [ODatagram []] /\
  let n := fst (attend_all false (inputs until_select listener0) (new_node (fun a => u8 (ready_made a)))) in
  reply true (select_1234 145) n = Some (select_answer 3) /\ reply false (select_1234 145) n = Some (select_answer 3) /\
  (exists s es d1 d2 d3 d4, run toy (until_select ++ OReceive 58 :: cutout_calls) (st0 ready_made) = Ok (tt, s, es) /\
    SpecBidi.sent es = [d1; d2; d3; d4] /\ make_data (decode_datagram (d1 ++ d2)) = Ok (enable_answer [1; 2; 3; 4]) /\
    make_data (decode_datagram (d3 ++ d4)) = Ok (select_answer 3)) /\
  (exists s es ds d1 d2, run toy (until_assign ++ OReceive 58 :: cutout_calls) (st0 ready_made) = Ok (tt, s, es) /\
    SpecBidi.sent es = ds ++ [d1; d2] /\ make_data (decode_datagram (d1 ++ d2)) = Ok assign_answer).
Proof.
  split; [do 2 eexists; vm_compute; reflexivity|]. split; [apply served_spec; vm_compute; reflexivity|].
  split; [vm_compute; reflexivity|]. split; [reflexivity|].
  split; [repeat constructor; discriminate|]. split; [repeat constructor; discriminate|].
  intros n. split; [vm_compute; reflexivity|]. split; [vm_compute; reflexivity|]. split.
  - do 6 eexists. split; [vm_compute; reflexivity|]. split; [vm_compute; reflexivity|]. split; vm_compute; reflexivity.
  - do 2 eexists. eexists [_; _; _; _], _, _. split; [vm_compute; reflexivity|]. split; [vm_compute; reflexivity|]. vm_compute. reflexivity.
Qed.

(** Nobody who has been handed out an address answers ENABLE any more: false for a decoder
    that had not been selected before *)
Theorem C102_assigned_refuted : exists (c : Z -> Z) os p s es A, run toy (os ++ [OBiDi1; OBiDi2]) (st0 c) = Ok (tt, s, es) /\
  is_assigned s = true /\ logon (r_addrs (rxs s)) = A /\ aval A <> 0 /\ says p (Enable 3 0x1234 5) /\
  (exists os1 t, os = os1 ++ [OReceive t] /\ completed (OReceive t) (listen_all os1 listener0) = Some p) /\
  exists ds d1 d2, SpecBidi.sent es = ds ++ [d1; d2] /\ make_data (decode_datagram (d1 ++ d2)) = Ok (enable_answer [1; 2; 3; 4]).
Proof. exact assigned_answers. Qed.
Print Assumptions C102_assigned_refuted.

(** True with both; and neither ENABLE nor SELECT changes anything then *)
Theorem C102_silent : forall free p n, n_selected n = true -> n_assigned n = true -> ~ 224 <= nth 1 p 0 < 240 ->
  reply free p n = None /\ hear p n = n.
Proof. exact logged_on_silent. Qed.
Print Assumptions C102_silent.

(** * C103 *)

(** Of decoders with different IDs at most one answers, unless to ENABLE *)
Theorem C103_one : forall free free' p n n' v v', did (n_conf n) <> did (n_conf n') ->
  reply free p n = Some v -> reply free' p n' = Some v' -> 240 <= nth 1 p 0.
Proof. exact one_answers. Qed.
Print Assumptions C103_one.

(** Any number of decoders with different IDs on the track. The station calls up one after
    the other with SELECT and ASSIGN, and all hear all: each packet gets exactly one answer, the
    right one, and in the end each decoder is logged on with the address handed out to it. *)
Theorem C103_all : forall free ns xs, Forall2 call_up ns xs -> NoDup (map (fun n => did (n_conf n)) ns) ->
  roll_call free (flat_map called xs) ns = flat_map (fun n => [[select_answer (aval (n_own n))]; [assign_answer]]) ns /\
  Forall2 (fun n x => logged_on (snd x) n) (all_hear (flat_map called xs) ns) xs.
Proof. exact roll_called. Qed.
Print Assumptions C103_all.

Example C103_ex :
  let xs := [(select_1234 145, assign_to 0xC3 0xE8, Addr 1000 ATLong false); (select_other, assign_other, Addr 200 ATLong false)] in
  Forall2 call_up fleet xs /\ NoDup (map (fun n => did (n_conf n)) fleet) /\
  roll_call true (enable_5 :: flat_map called xs) fleet =
    [[enable_answer [1; 2; 3; 4]; enable_answer [9; 9; 9; 9]]; [select_answer 3]; [assign_answer]; [select_answer 3]; [assign_answer]] /\
  map n_logon (all_hear (enable_5 :: flat_map called xs) fleet) = [Addr 1000 ATLong false; Addr 200 ATLong false].
Proof.
  intros xs. split; [|split; [|split; vm_compute; reflexivity]].
  - constructor; [|constructor; [|constructor]].
    + exists 0xC3, 0xE8. split; [reflexivity|]. split; [reflexivity|].
      split; [exact (says_select 0 145 [1; 2; 3; 4] (skipn 7 (select_1234 145)) ltac:(lia) eq_refl)|]. split; [right; vm_compute; reflexivity|].
      split; [exact (says_assign 0 145 [1; 2; 3; 4] 0xC3 0xE8 _ [_] ltac:(lia) eq_refl)|]. split; [right; vm_compute; reflexivity|].
      split; [reflexivity|]. cbn. lia.
    + exists 0xC0, 200. split; [reflexivity|]. split; [reflexivity|].
      split; [exact (says_select 0 145 [9; 9; 9; 9] (skipn 7 select_other) ltac:(lia) eq_refl)|]. split; [right; vm_compute; reflexivity|].
      split; [exact (says_assign 0 145 [9; 9; 9; 9] 0xC0 200 _ [_] ltac:(lia) eq_refl)|]. split; [right; vm_compute; reflexivity|].
      split; [reflexivity|]. cbn. lia.
  - assert (map (fun n => did (n_conf n)) fleet = [[1; 2; 3; 4]; [9; 9; 9; 9]]) as -> by (vm_compute; reflexivity).
    constructor; [cbn [In]; intuition congruence|]. constructor; [cbn [In]; tauto|constructor].
Qed.
