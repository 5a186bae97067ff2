(** Property C108: wrong bits on the track *)
From Verif Require Import Prelude Address SpecCodec RxState Rx SpecRx SpecFlip FlipProofs2 Toy CvWitness.

(** Full statement: a decoder never obeys a packet in which a single bit was inverted. It holds
    for the data bits and for the end bit, and for start bits other than the first unless the
    bytes before it are a packet of their own. It is false in general. *)

(** A packet in which one byte has been replaced by any other one is not queued, and nothing
    else happens *)
Theorem C108_byte : forall (I : Type) (E : Env I) i os s es a b b' c n ts,
  run E os (st0 i) = Ok (tt, s, es) -> f_state (r_fsm (rxs s)) = Preamble ->
  (length (r_deque (rxs s)) < 31)%nat -> packet_ok (a ++ b :: c) -> byte b' -> b' <> b ->
  (10 <= n)%nat -> plays ts n (a ++ b' :: c) ->
  exists s', run E (map OReceive ts) s = Ok (tt, s', []) /\ left_alone s s' [].
Proof. exact @damaged. Qed.
Print Assumptions C108_byte.

(** The same for one inverted data bit *)
Theorem C108_data : forall (I : Type) (E : Env I) i os s es bs n j k ts,
  run E os (st0 i) = Ok (tt, s, es) -> f_state (r_fsm (rxs s)) = Preamble ->
  (length (r_deque (rxs s)) < 31)%nat -> packet_ok bs -> (10 <= n)%nat -> (j < length bs)%nat -> (k < 8)%nat ->
  plays_bits ts (flip (data_bit n j k) (track_bits n bs)) ->
  exists s', run E (map OReceive ts) s = Ok (tt, s', []) /\ left_alone s s' [].
Proof. exact @flipped_data. Qed.
Print Assumptions C108_data.

(** An inverted start bit ends the packet: the bytes before it are queued if and only if they
    are a packet *)
Theorem C108_start : forall (I : Type) (E : Env I) i os s es bs n j ts,
  run E os (st0 i) = Ok (tt, s, es) -> f_state (r_fsm (rxs s)) = Preamble ->
  (length (r_deque (rxs s)) < 30)%nat -> packet_ok bs -> (10 <= n)%nat -> (1 <= j < length bs)%nat ->
  plays_bits ts (flip (start_bit n j) (track_bits n bs)) ->
  exists s', run E (map OReceive ts) s = Ok (tt, s', []) /\
    left_alone s s' (if valid_packet (firstn j bs) then [firstn j bs] else []).
Proof. exact @flipped_start. Qed.
Print Assumptions C108_start.

(** An inverted end bit makes the next preamble, with or without the bit heard in a cutout, a
    further byte: nothing is queued *)
Theorem C108_end : forall (I : Type) (E : Env I) i os s es bs n g m ts,
  run E os (st0 i) = Ok (tt, s, es) -> f_state (r_fsm (rxs s)) = Preamble ->
  (length (r_deque (rxs s)) < 31)%nat -> packet_ok bs -> (length bs < 18)%nat -> (10 <= n)%nat -> (g <= 1)%nat -> (9 <= m + g)%nat ->
  plays_bits ts (flip (end_bit n bs) (track_bits n bs) ++ repeat false g ++ repeat true m) ->
  exists s', run E (map OReceive ts) s = Ok (tt, s', []) /\ left_alone s s' [].
Proof. exact @flipped_end. Qed.
Print Assumptions C108_end.

(** One inverted preamble bit in a speed command for locomotive 6374 sets locomotive 108 in motion *)
Theorem C108_refuted : exists bs k ts s es, packet_ok bs /\ address_of bs = Addr 6374 ATLong false /\ (k < 17)%nat /\
  plays_bits ts (flip k (track_bits 17 bs)) /\
  run toy ([OInit; OEnable] ++ map OReceive ts ++ [OReceive 58; OExecute]) (st0 (put factory 0 108)) = Ok (tt, s, es ++ [EDirection 108 true; ESpeed 108 30]).
Proof.
  exists [0xD8; 0xE6; 0x3F; 0x60; 0x61], 16%nat, (half_bits 58 100 (flip 16 (track_bits 17 [0xD8; 0xE6; 0x3F; 0x60; 0x61]))).
  do 2 eexists. split; [split; [repeat constructor; unfold byte; lia|split; [cbn; lia|split; reflexivity]]|].
  split; [reflexivity|]. split; [lia|]. split; [reflexivity|].
  match goal with |- run ?e ?o ?s = _ => let r := eval vm_compute in (run e o s) in
    match r with Ok (tt, ?s', ?a :: ?b :: ?c :: ?d :: ?e1 :: ?f :: ?g :: ?h :: ?i :: ?j :: ?k :: ?l :: ?m :: ?n :: ?r) =>
      instantiate (1 := [a; b; c; d; e1; f; g; h; i; j; k; l; m; n]); instantiate (1 := s') end end.
  vm_compute. reflexivity.
Qed.
Print Assumptions C108_refuted.

(** One inverted start bit in a binary state command makes the decoder read outside the packet *)
Theorem C108_start_refuted : exists bs j ts, packet_ok bs /\ (1 <= j < length bs)%nat /\
  plays_bits ts (flip (start_bit 17 j) (track_bits 17 bs)) /\
  run toy ([OInit; OEnable] ++ map OReceive ts ++ [OExecute]) (st0 factory) = UB OutOfBounds.
Proof.
  exists [3; 0xC0; 0xC3; 0x05; 0x05], 3%nat, (half_bits 58 100 (flip (start_bit 17 3) (track_bits 17 [3; 0xC0; 0xC3; 0x05; 0x05]))).
  split; [split; [repeat constructor; unfold byte; lia|split; [cbn; lia|split; reflexivity]]|].
  split; [cbn; lia|]. split; [reflexivity|]. vm_compute. reflexivity.
Qed.
Print Assumptions C108_start_refuted.

(** A packet, the same with a wrong data bit, with a wrong start bit, with a wrong end bit, and
    once more as it should be *)
Example C108_ex : let bs := [3; 0x3F; 0x90; 0xAC] in let play := half_bits 58 100 in
  let os := [OInit; OEnable] ++ map OReceive (play (track_bits 17 bs)) ++ [OReceive 58; OExecute] in
  let wrong := play (flip (data_bit 17 2 3) (track_bits 17 bs)) ++ play (flip (start_bit 17 2) (track_bits 17 bs)) ++
               play (flip (end_bit 17 bs) (track_bits 17 bs)) in
  packet_ok bs /\ flip (data_bit 17 2 3) (track_bits 17 bs) = track_bits 17 [3; 0x3F; 0x80; 0xAC] /\
  (exists s es, run toy os (st0 factory) = Ok (tt, s, es) /\ f_state (r_fsm (rxs s)) = Preamble /\ r_deque (rxs s) = []) /\
  match run toy (os ++ map OReceive (wrong ++ play (track_bits 19 bs))) (st0 factory) with
  | Ok (_, s, _) => r_deque (rxs s) = [bs]
  | UB _ => False
  end.
Proof.
  cbv zeta. split; [split; [repeat constructor; unfold byte; lia|split; [cbn; lia|split; reflexivity]]|].
  split; [vm_compute; reflexivity|]. split; [do 2 eexists; split; [vm_compute; reflexivity|split; reflexivity]|]. vm_compute. reflexivity.
Qed.
