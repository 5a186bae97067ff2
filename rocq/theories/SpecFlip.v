(** Packets disturbed on the track *)
From Verif Require Import Prelude Address SpecCodec RxState Rx SpecRx.

(** One bit inverted *)
Definition flip (k : nat) (bits : list bool) : list bool :=
  firstn k bits ++ map negb (firstn 1 (skipn k bits)) ++ skipn (S k) bits.

(** [plays_bits ts bits]: the durations are those of the bits *)
Definition plays_bits (ts : list Z) (bits : list bool) : Prop :=
  map half_bit ts = map Some (flat_map (fun b => [b; b]) bits).

(** Places in a packet with [n] preamble bits: start bit of byte [j], its data bits counted from
    the most significant one, end bit *)
Definition start_bit (n j : nat) : nat := (n + 9 * j)%nat.
Definition data_bit (n j k : nat) : nat := (n + 9 * j + 1 + k)%nat.
Definition end_bit (n : nat) (bs : list Z) : nat := (n + 9 * length bs)%nat.

(** The decoder waits for a preamble, has queued [ps] more than before, and nothing else has
    changed but the address last received and the two counters *)
Definition left_alone {I} (s s' : st I) (ps : list (list Z)) : Prop :=
  f_state (r_fsm (rxs s')) = Preamble /\ f_packet_end (r_fsm (rxs s')) = false /\
  r_deque (rxs s') = r_deque (rxs s) ++ ps /\
  (primary (r_addrs (rxs s')), consist (r_addrs (rxs s')), logon (r_addrs (rxs s')), r_conf (rxs s'),
   r_logon (rxs s'), r_bidi (rxs s'), r_cv (rxs s'), r_time (rxs s'), app s', pending s') =
  (primary (r_addrs (rxs s)), consist (r_addrs (rxs s)), logon (r_addrs (rxs s)), r_conf (rxs s),
   r_logon (rxs s), r_bidi (rxs s), r_cv (rxs s), r_time (rxs s), app s, pending s).
