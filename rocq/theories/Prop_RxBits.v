(** Property theorems C19..C26: from half bits to queued packets. *)
From Verif Require Import Prelude Address SpecCodec SpecTx Tx RxState Rx SpecRx Toy
  RxBitProofs RxBitProofs2 RxBitProofs3 RxBitProofs4 RxBitProofs5.

(** * C19 *)

(** The half bits of a packet, each with its own tolerated duration, given to any
    decoder between packets: the packet is queued, packet end is flagged, the address
    register and the two counters change and nothing else does *)
Theorem C19_receives : forall (I : Type) (E : Env I) i os s es bs n ts,
  run E os (st0 i) = Ok (tt, s, es) -> f_state (r_fsm (rxs s)) = Preamble ->
  (length (r_deque (rxs s)) < 31)%nat -> packet_ok bs -> (10 <= n)%nat -> plays ts n bs ->
  exists s', run E (map OReceive ts) s = Ok (tt, s', []) /\
    r_deque (rxs s') = r_deque (rxs s) ++ [bs] /\
    f_packet_end (r_fsm (rxs s')) = true /\ f_packet (r_fsm (rxs s')) = bs /\
    received (r_addrs (rxs s')) = address_of bs /\
    packet_count (r_cnt (rxs s')) = packet_count (r_cnt (rxs s)) + 1 /\
    preamble_count (r_cnt (rxs s')) = preamble_count (r_cnt (rxs s)) + 1 /\
    qos (r_cnt (rxs s')) = qos (r_cnt (rxs s)) /\
    (primary (r_addrs (rxs s')), consist (r_addrs (rxs s')), logon (r_addrs (rxs s')), r_conf (rxs s'),
     r_logon (rxs s'), r_bidi (rxs s'), r_cv (rxs s'), r_time (rxs s'), app s', pending s') =
    (primary (r_addrs (rxs s)), consist (r_addrs (rxs s)), logon (r_addrs (rxs s)), r_conf (rxs s),
     r_logon (rxs s), r_bidi (rxs s), r_cv (rxs s), r_time (rxs s), app s, pending s).
Proof. exact @receive_packet_reachable. Qed.
Print Assumptions C19_receives.

(** A speed command with ragged half bits *)
Example C19_ex : exists ts, plays ts 10 [3; 0x3F; 0x90; 0xAC] /\ packet_ok [3; 0x3F; 0x90; 0xAC] /\
  In 52 ts /\ In 64 ts /\ In 90 ts /\ In 9999 ts.
Proof.
  exists (repeat 52 10 ++ repeat 64 10 ++ flat_map (fun b : bool => if b then [53; 63] else [90; 9999])
            (false :: msb_first 3 ++ false :: msb_first 0x3F ++ false :: msb_first 0x90
             ++ false :: msb_first 0xAC ++ [true])).
  split; [reflexivity|]. split.
  - split; [repeat constructor; unfold byte; lia|]. cbn. repeat split; lia.
  - vm_compute. tauto.
Qed.

(** * C20 *)

Theorem C20_sound : forall (I : Type) (E : Env I) i os s es t s' es',
  run E os (st0 i) = Ok (tt, s, es) -> receive E t s = Ok (tt, s', es') ->
  (f_packet_end (r_fsm (rxs s')) = true ->
   exists pre hs bs, half_bits_in (os ++ [OReceive t]) = pre ++ hs /\ sounds_like hs bs /\
     Forall byte bs /\ (3 <= length bs <= 18)%nat /\ xor_all bs = 0 /\
     f_packet (r_fsm (rxs s')) = bs /\ received (r_addrs (rxs s')) = address_of bs /\
     r_deque (rxs s') = if is_logon bs then r_deque (rxs s) else r_deque (rxs s) ++ [bs]) /\
  (f_packet_end (r_fsm (rxs s')) = false -> r_deque (rxs s') = r_deque (rxs s)).
Proof. exact @receive_sound. Qed.
Print Assumptions C20_sound.

Example C20_ex : exists s es s' es',
  run toy (map OReceive (removelast (half_bits 58 100 (track_bits 14 [3; 0x3F; 0x90; 0xAC])))) (st0 factory)
    = Ok (tt, s, es) /\
  receive toy 58 s = Ok (tt, s', es') /\ f_packet_end (r_fsm (rxs s')) = true.
Proof. do 4 eexists. split; [vm_compute; reflexivity|]. split; [vm_compute; reflexivity|reflexivity]. Qed.

(** * C21 *)

(** Two packets, possibly with other half bits between them as in a cutout: whatever
    the decoder did before, the second one is queued, provided that the frame the
    decoder takes itself to be in cannot overflow and is no logon packet *)
Theorem C21_resync : forall (I : Type) (E : Env I) i os s es bs1 n1 ts1 gap bs2 n2 ts2,
  run E os (st0 i) = Ok (tt, s, es) ->
  let unfinished := frame_so_far (l_heard (listen_all os listener0)) in
  (length unfinished < 18)%nat -> is_logon unfinished = false ->
  (length (r_deque (rxs s)) <= 28)%nat ->
  packet_ok bs1 -> (10 <= n1)%nat -> plays ts1 n1 bs1 ->
  Forall (fun t => half_bit t <> Some true) gap ->
  packet_ok bs2 -> (10 <= n2)%nat -> plays ts2 n2 bs2 ->
  exists s' ex,
    run E (map OReceive (ts1 ++ gap ++ ts2)) s = Ok (tt, s', []) /\
    r_deque (rxs s') = r_deque (rxs s) ++ ex ++ [bs2] /\ (length ex <= 2)%nat /\
    f_packet_end (r_fsm (rxs s')) = true /\ f_packet (r_fsm (rxs s')) = bs2 /\
    received (r_addrs (rxs s')) = address_of bs2.
Proof. exact @resync_reachable. Qed.
Print Assumptions C21_resync.

(** Without the proviso it fails: the preamble of the next packet becomes the
    nineteenth byte of the frame the decoder is in *)
Theorem C21_resync_refuted : exists os s es bs1 ts1,
  run toy os (st0 factory) = Ok (tt, s, es) /\ packet_ok bs1 /\ plays ts1 10 bs1 /\ r_deque (rxs s) = [] /\
  run toy (map OReceive ts1) s = UB PacketFull.
Proof.
  exists (map OReceive (repeat 58 20 ++ repeat 100 (2 + 18 * 18))). do 2 eexists.
  exists [3; 0x3F; 0x90; 0xAC], (half_bits 58 100 (track_bits 10 [3; 0x3F; 0x90; 0xAC])).
  split; [vm_compute; reflexivity|]. split.
  { split; [repeat constructor; unfold byte; lia|]. cbn. repeat split; lia. }
  split; [reflexivity|]. split; [reflexivity|]. vm_compute. reflexivity.
Qed.
Print Assumptions C21_resync_refuted.

(** The decoder is in the middle of the second byte of a garbled frame *)
Example C21_ex : exists os s es,
  run toy os (st0 factory) = Ok (tt, s, es) /\ f_state (r_fsm (rxs s)) = Data /\
  f_bit_count (r_fsm (rxs s)) = 2%nat /\ f_is_halfbit (r_fsm (rxs s)) = true /\
  frame_so_far (l_heard (listen_all os listener0)) = [3] /\
  Forall (fun t => half_bit t <> Some true) [29; 51; 113; 261; 17].
Proof.
  exists (map OReceive (half_bits 58 100 (repeat true 12 ++ false :: msb_first 3 ++ [false; true; true]) ++ [58])).
  do 2 eexists. split; [vm_compute; reflexivity|].
  do 3 (split; [vm_compute; reflexivity|]). split; [vm_compute; reflexivity|].
  repeat constructor; vm_compute; discriminate.
Qed.

(** * C22 *)

(** A stream of durations has the same effect as its half bits alone, apart from the
    packet end flag, from any state at all *)
Theorem C22_stream : forall (I : Type) (E : Env I) ts s,
  same_but_end (run E (map OReceive ts) s) (run E (map OReceive (filter is_half ts)) s).
Proof. exact @invalid_ignored. Qed.
Print Assumptions C22_stream.

(** Before another half bit there is no difference at all, whatever else is called before and after *)
Theorem C22_inserted : forall (I : Type) (E : Env I) t x os s, half_bit t = None ->
  run E (OReceive t :: OReceive x :: os) s = run E (OReceive x :: os) s.
Proof. exact @invalid_before_receive. Qed.
Print Assumptions C22_inserted.

Example C22_ex : filter is_half [0; 51; 52; 64; 65; 89; 90; 10000; 10001] = [52; 64; 90; 10000] /\
  map half_bit [0; 51; 52; 64; 65; 89; 90; 10000; 10001]
  = [None; None; Some true; Some true; None; None; Some false; Some false; None].
Proof. split; reflexivity. Qed.

(** * C23 *)

Theorem C23_fifo : forall (I : Type) (E : Env I) i os s es, run E os (st0 i) = Ok (tt, s, es) ->
  heard os listener0 = taken os listener0 ++ r_deque (rxs s) /\ (length (r_deque (rxs s)) <= 31)%nat.
Proof. exact @fifo. Qed.
Print Assumptions C23_fifo.

(** With a full queue any number of durations changes the bit registers only *)
Theorem C23_full_drops : forall (I : Type) (E : Env I) ts s, length (r_deque (rxs s)) = 31%nat ->
  exists f, run E (map OReceive ts) s = Ok (tt, with_fsm f s, []).
Proof. exact @full_drops. Qed.
Print Assumptions C23_full_drops.

(** Thirty-three packets, the last two are dropped *)
Example C23_ex : exists s es,
  run toy (concat (repeat (map OReceive (half_bits 58 100 (track_bits 14 [3; 0x3F; 0x90; 0xAC]))) 33)) (st0 factory)
    = Ok (tt, s, es) /\ r_deque (rxs s) = repeat [3; 0x3F; 0x90; 0xAC] 31.
Proof. do 2 eexists. split; [vm_compute; reflexivity|vm_compute; reflexivity]. Qed.

Example C23_ex2 :
  let p := map OReceive (half_bits 58 100 (track_bits 14 [3; 0x3F; 0x90; 0xAC]) ++ [0]) in
  let q := map OReceive (half_bits 58 100 (track_bits 14 [4; 0x3F; 0x90; 0xAB]) ++ [0]) in
  heard (p ++ q ++ [OExecute] ++ p) listener0 = [[3; 0x3F; 0x90; 0xAC]; [4; 0x3F; 0x90; 0xAB]; [3; 0x3F; 0x90; 0xAC]] /\
  taken (p ++ q ++ [OExecute] ++ p) listener0 = [[3; 0x3F; 0x90; 0xAC]].
Proof. split; vm_compute; reflexivity. Qed.

(** * C24 *)

(** A frame of 19 bytes writes past the end of the packet, whatever the application *)
Theorem C24_oversized_refuted : exists ts, forall (I : Type) (E : Env I) i,
  run E (map OReceive ts) (st0 i) = UB PacketFull.
Proof. exists oversized. exact @oversized_overflows. Qed.
Print Assumptions C24_oversized_refuted.

(** It is exactly the completion of a nineteenth byte that does so: all other
    durations (except those that complete a logon packet) are safe in all states *)
Theorem C24_exact : forall (I : Type) (E : Env I) i os s es t,
  run E os (st0 i) = Ok (tt, s, es) ->
  let l := listen_all os listener0 in
  (forall bs, completed (OReceive t) l = Some bs -> is_logon bs = false) ->
  match half_bit t with
  | Some b =>
      if looked_at (l_heard l ++ [b]) && negb (length (r_deque (rxs s)) =? 31)%nat &&
         (18 <? length (frame_so_far (l_heard l ++ [b])))%nat
      then receive E t s = UB PacketFull
      else exists s', receive E t s = Ok (tt, s', [])
  | None => exists s', receive E t s = Ok (tt, s', [])
  end.
Proof. exact @receive_total. Qed.
Print Assumptions C24_exact.

Theorem C24_bounded : forall (I : Type) (E : Env I) i os s es,
  run E os (st0 i) = Ok (tt, s, es) -> (length (f_packet (r_fsm (rxs s))) <= 18)%nat.
Proof. exact @receive_bounded. Qed.
Print Assumptions C24_bounded.

Example C24_ex : exists s es,
  run toy (map OReceive (half_bits 58 100 (track_bits 14 (repeat 7 18)))) (st0 factory) = Ok (tt, s, es) /\
  r_deque (rxs s) = [repeat 7 18].
Proof. do 2 eexists. split; vm_compute; reflexivity. Qed.

(** * C25 *)

Theorem C25_flag : forall (I : Type) (E : Env I) i os1 t os2 s es,
  run E (os1 ++ OReceive t :: os2) (st0 i) = Ok (tt, s, es) ->
  existsb is_receive os2 = false ->
  f_packet_end (r_fsm (rxs s)) =
  match completed (OReceive t) (listen_all os1 listener0) with Some _ => true | None => false end.
Proof. exact @packet_end_flag. Qed.
Print Assumptions C25_flag.

Theorem C25_gate : forall (I : Type) (E : Env I) s,
  f_packet_end (r_fsm (rxs s)) = true \/ r_deque (rxs s) = [] ->
  execute E s = Ok (false, s, []).
Proof. exact @execute_gate. Qed.
Print Assumptions C25_gate.

Theorem C25_one : forall (I : Type) (E : Env I) s b s' es p q,
  f_packet_end (r_fsm (rxs s)) = false -> r_deque (rxs s) = p :: q ->
  execute E s = Ok (b, s', es) ->
  r_deque (rxs s') = q /\ r_fsm (rxs s') = r_fsm (rxs s).
Proof. exact @execute_one. Qed.
Print Assumptions C25_one.

Example C25_ex : exists s es s' es',
  run toy ([OInit; OEnable] ++ map OReceive (half_bits 58 100 (track_bits 14 [3; 0x3F; 0x90; 0xAC]) ++ [58])) (st0 factory)
    = Ok (tt, s, es) /\ f_packet_end (r_fsm (rxs s)) = false /\ r_deque (rxs s) = [[3; 0x3F; 0x90; 0xAC]] /\
  execute toy s = Ok (true, s', es').
Proof. do 4 eexists. split; [vm_compute; reflexivity|]. do 2 (split; [reflexivity|]). vm_compute. reflexivity. Qed.

(** * C26 *)

(** [transmit] connected to [receive], with any other decoder calls in between: as
    long as the decoder keeps up and is not disabled, the packets it queues are exactly
    the packets (idle packets included) of the history of the command station whose
    half bits have been transmitted completely, in this order *)
Theorem C26_end_to_end : forall (I : Type) (E : Env I) c ops xs tx i dos s es,
  config_ok c -> Forall plain_op ops -> (forall bs, In (TBytes bs) ops -> packet_ok bs) ->
  tx_run (TInit c :: ops) (tx_init_state 4) = Ok ((None, []) :: xs, tx) ->
  filter is_receive dos = map OReceive (map fst (intervals xs)) -> ~ In ODisable dos ->
  never_full dos listener0 -> run E dos (st0 i) = Ok (tt, s, es) ->
  exists h, flat_map call_of h = ops /\ flat_map result_of h = xs /\ history_ok c h /\
    heard dos listener0 = finished c (None :: started h) (length (ticks h)) /\
    heard dos listener0 = taken dos listener0 ++ r_deque (rxs s).
Proof. exact @end_to_end. Qed.
Print Assumptions C26_end_to_end.

(** Two packets queued while the idle packet is sent, with cutouts *)
Example C26_ex : exists xs tx s es,
  tx_run (TInit (TxConfig 17 58 100 false true) :: TBytes [3; 0x3F; 0x90; 0xAC] :: TBytes [4; 0x3F; 0x90; 0xAB]
          :: repeat TTransmit 350) (tx_init_state 4) = Ok ((None, []) :: xs, tx) /\
  run toy (map OReceive (map fst (intervals xs))) (st0 factory) = Ok (tt, s, es) /\
  r_deque (rxs s) = [[0xFF; 0; 0xFF]; [3; 0x3F; 0x90; 0xAC]; [4; 0x3F; 0x90; 0xAB]].
Proof. do 4 eexists. split; [vm_compute; reflexivity|]. split; vm_compute; reflexivity. Qed.
