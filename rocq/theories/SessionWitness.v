(** Concrete conversations of automatic logon *)
From Verif Require Import Prelude Address Backoff Datagram SpecCodec Packets Checksum RxState Rx SpecRx SpecExec SpecConf SpecCv SpecLogon SpecBidi Toy CvWitness
  LogonWitness SpecLayout LayoutWitness SpecNode NodeWitness SpecSession.

(** ENABLE for all, then SELECT and ASSIGN for the decoder with ID 1 2 3 4; the last duration
    of the last packet and the cutout behind it are still to come *)
Definition until_select : list op := talk [enable_5] ++ almost (select_1234 145).
Definition until_assign : list op := talk [enable_5; select_1234 145] ++ almost (assign_to 0xC3 0xE8).
Definition cutout_calls : list op := [OExecute; OBiDi1; ODatagram []; OBiDi2].

(** Two decoders with IDs 1 2 3 4 and 9 9 9 9 *)
Definition other_made : Z -> Z := put (put (put (put ready_made 249 9) 250 9) 251 9) 252 9.
Definition select_other : list Z := with_check [0xFE; 0xD0; 145; 9; 9; 9; 9; 0xFF].
Definition fleet : list node := map (fun c => configure (new_node (fun a => u8 (c a)))) [ready_made; other_made].

(** Handed out an address without having been selected, a decoder still answers ENABLE *)
Lemma unselected_answers : exists s es, run toy (talk [enable_5; assign_to 0xC3 0xE8; closed [0xFE; 0xFF; 0x12; 0x34; 5]]) (st0 ready_made) = Ok (tt, s, es) /\
  is_assigned s = true /\ logon (r_addrs (rxs s)) = Addr 1000 ATLong false /\
  exists ds d1 d2, SpecBidi.sent es = ds ++ [d1; d2] /\ length ds = 4%nat /\ make_data (decode_datagram (d1 ++ d2)) = Ok (enable_answer [1; 2; 3; 4]).
Proof.
  do 2 eexists. split; [vm_compute; reflexivity|]. split; [reflexivity|]. split; [reflexivity|].
  eexists [_; _; _; _], _, _. split; [vm_compute; reflexivity|]. split; [reflexivity|]. vm_compute. reflexivity.
Qed.
Lemma assigned_answers : exists (c : Z -> Z) os p s es A, run toy (os ++ [OBiDi1; OBiDi2]) (st0 c) = Ok (tt, s, es) /\
  is_assigned s = true /\ logon (r_addrs (rxs s)) = A /\ aval A <> 0 /\ says p (Enable 3 0x1234 5) /\
  (exists os1 t, os = os1 ++ [OReceive t] /\ completed (OReceive t) (listen_all os1 listener0) = Some p) /\
  exists ds d1 d2, SpecBidi.sent es = ds ++ [d1; d2] /\ make_data (decode_datagram (d1 ++ d2)) = Ok (enable_answer [1; 2; 3; 4]).
Proof.
  exists ready_made, (talk [enable_5; assign_to 0xC3 0xE8] ++ track (closed [0xFE; 0xFF; 0x12; 0x34; 5])), (closed [0xFE; 0xFF; 0x12; 0x34; 5]).
  destruct unselected_answers as (s & es & H1 & H2 & H3 & ds & d1 & d2 & H4 & _ & H5). exists s, es, (Addr 1000 ATLong false).
  split; [exact H1|]. split; [exact H2|]. split; [exact H3|]. split; [cbn; lia|].
  split; [exact (says_enable 15 0x1234 5 [_] ltac:(lia) ltac:(lia))|].
  split; [|exists ds, d1, d2; auto].
  exists (talk [enable_5; assign_to 0xC3 0xE8] ++ almost (closed [0xFE; 0xFF; 0x12; 0x34; 5])), 58.
  split; [rewrite <- app_assoc; f_equal; vm_compute; reflexivity|vm_compute; reflexivity].
Qed.
