(** Transmitter (include/dcc/tx). *)
From Verif Require Import Prelude Packets.

(** DCC_TX_* limits, CMakeLists.txt:55-81; tx/timing.hpp:17-25 *)
Definition tx_min_preamble : Z := 17.
Definition tx_max_preamble : Z := 30.
Definition tx_bit1_min : Z := 56.
Definition tx_bit1 : Z := 58.
Definition tx_bit1_max : Z := 60.
Definition tx_bit0_min : Z := 97.
Definition tx_bit0 : Z := 100.
Definition tx_bit0_max : Z := 114.

(** DCC_TX_DEQUE_SIZE, CMakeLists.txt:79-81 *)
Definition tx_deque_size : nat := 3.

(** struct Config, tx/config.hpp:17-38 *)
Record tx_config := TxConfig {
  num_preamble : Z;
  bit1_duration : Z;
  bit0_duration : Z;
  cfg_invert : bool;
  cfg_bidi : bool }.

(** Config{}, tx/config.hpp:19-37 *)
Definition default_config : tx_config :=
  TxConfig tx_min_preamble tx_bit1 tx_bit0 false true.

(** Capacity of Timings, tx/timings.hpp:23-28: (255 + 1 + 18 * 9) * 2 *)
Definition timings_capacity : nat := (255 + 1 + max_packet_size * (8 + 1)) * 2.

(** tx/timings.hpp:51-53: the two half bits of one data bit *)
Definition bit_timings (cfg : tx_config) (b : bool) : list Z :=
  repeat (if b then bit1_duration cfg else bit0_duration cfg) 2.

(** tx/timings.hpp:48-54: start bit and data bits, most significant first *)
Definition byte_timings (cfg : tx_config) (b : Z) : list Z :=
  bit_timings cfg false ++
  flat_map (fun i => bit_timings cfg (Z.testbit b i)) [7; 6; 5; 4; 3; 2; 1; 0].

(** bytes2timings, tx/timings.hpp:35-65. Writing behind the capacity of Timings is
    [OutOfBounds]. *)
Definition bytes2timings (bs : list Z) (cfg : tx_config) : res (list Z) :=
  let t :=
    repeat (bit1_duration cfg) (Z.to_nat (num_preamble cfg * 2)) ++
    flat_map (byte_timings cfg) bs ++
    bit_timings cfg true in
  if (length t <=? timings_capacity)%nat then Ok t else UB OutOfBounds.

(** packet2timings, tx/timings.hpp:72-74 *)
Definition packet2timings (p : list Z) (cfg : tx_config) : res (list Z) :=
  bytes2timings p cfg.

(** enum bidi::Timing, bidi/timing.hpp:17-28 *)
Definition TCS : Z := 29.
Definition TCE : Z := 471.
Definition TTS1 : Z := 80.
Definition TTC1 : Z := 177.
Definition TTS2 : Z := 193.
Definition TTC2 : Z := 454.

(** Calls into the application, concept CommandStation (tx/command_station.hpp) *)
Inductive tx_event :=
| TrackOutputs (n p : bool)
| BiDiStart | BiDiChannel1 | BiDiChannel2 | BiDiEnd.

(** _packet: Timings const*, tx/crtp_base.hpp:149. Either the static idle packet
    or a slot of the deque's storage. *)
Inductive tx_ptr := PIdle | PSlot (i : nat).

(** Fields of tx::CrtpBase, tx/crtp_base.hpp:146-152. The deque
    (ztl::inplace_deque, not in the repository) is a ring of [length tx_slots]
    slots with first element [tx_begin] and [tx_size] elements. *)
Record tx_state := TxState {
  tx_slots : list (list Z);
  tx_begin : nat;
  tx_size : nat;
  tx_packet : tx_ptr;
  tx_packet_count : nat;
  tx_bidi_count : nat;
  tx_cfg : tx_config }.

(** _idle_packet, tx/crtp_base.hpp:146: built with the default configuration *)
Definition idle_timings : list Z :=
  match packet2timings make_idle_packet default_config with
  | Ok t => t
  | UB _ => []
  end.

(** Initial state of a transmitter whose deque storage has [ns] slots,
    tx/crtp_base.hpp:146-152 *)
Definition tx_init_state (ns : nat) : tx_state :=
  TxState (repeat [] ns) 0 0 PIdle 0 0 default_config.

(** init, tx/crtp_base.hpp:34-40 *)
Definition tx_init (cfg : tx_config) (s : tx_state) : res tx_state :=
  if (tx_min_preamble <=? num_preamble cfg) && (num_preamble cfg <=? tx_max_preamble)
     && (tx_bit1_min <=? bit1_duration cfg) && (bit1_duration cfg <=? tx_bit1_max)
     && (tx_bit0_min <=? bit0_duration cfg) && (bit0_duration cfg <=? tx_bit0_max)
  then Ok (TxState (tx_slots s) (tx_begin s) (tx_size s) (tx_packet s)
                   (tx_packet_count s) (tx_bidi_count s) cfg)
  else UB AssertFailed.

(** Replace element [i] of a list (a store into a ring slot) *)
Fixpoint list_set {A} (l : list A) (i : nat) (v : A) : list A :=
  match l, i with
  | [], _ => []
  | _ :: r, O => v :: r
  | x :: r, S j => x :: list_set r j v
  end.

(** inplace_deque::push_back on the ring (ztl, not in the repository); [full] is
    checked by the caller, tx/crtp_base.hpp:53 *)
Definition ring_push (t : list Z) (s : tx_state) : tx_state :=
  let ns := length (tx_slots s) in
  TxState (list_set (tx_slots s) ((tx_begin s + tx_size s) mod ns) t)
          (tx_begin s) (S (tx_size s)) (tx_packet s) (tx_packet_count s)
          (tx_bidi_count s) (tx_cfg s).

(** bytes and packet, tx/crtp_base.hpp:45-56 *)
Definition tx_bytes (bs : list Z) (s : tx_state) : res tx_state :=
  if (tx_size s =? tx_deque_size)%nat then Ok s
  else if (length bs <=? max_packet_size)%nat then
    rbind (bytes2timings bs (tx_cfg s)) (fun t => Ok (ring_push t s))
  else UB AssertFailed.

(** *_packet *)
Definition tx_current (s : tx_state) : list Z :=
  match tx_packet s with
  | PIdle => idle_timings
  | PSlot i => nth i (tx_slots s) []
  end.

(** packetTiming, tx/crtp_base.hpp:96-106 *)
Definition packet_timing (s : tx_state) : res (Z * tx_state * list tx_event) :=
  match nth_error (tx_current s) (tx_packet_count s) with
  | None => UB OutOfBounds
  | Some t =>
      let s' := TxState (tx_slots s) (tx_begin s) (tx_size s) (tx_packet s)
                        (S (tx_packet_count s)) (tx_bidi_count s) (tx_cfg s) in
      let inv := cfg_invert (tx_cfg s) in
      if Nat.even (tx_packet_count s)
      then Ok (t, s', [TrackOutputs (xorb false inv) (xorb true inv)])
      else Ok (t, s', [TrackOutputs (xorb true inv) (xorb false inv)])
  end.

(** bidiTiming, tx/crtp_base.hpp:111-144 *)
Definition bidi_timing (s : tx_state) : Z * tx_state * list tx_event :=
  let s' := TxState (tx_slots s) (tx_begin s) (tx_size s) (tx_packet s)
                    (tx_packet_count s) (S (tx_bidi_count s)) (tx_cfg s) in
  let inv := cfg_invert (tx_cfg s) in
  match tx_bidi_count s with
  | 0%nat => (TCS, s', [TrackOutputs (xorb false inv) (xorb true inv)])
  | 1%nat => (TTS1 - TCS, s', [TrackOutputs false false; BiDiStart])
  | 2%nat => (TTS2 - TTS1, s', [BiDiChannel1])
  | 3%nat => (TTC2 - TTS2, s', [BiDiChannel2])
  | _ => (TCE - TTC2, s', [BiDiEnd])
  end.

(** transmit, tx/crtp_base.hpp:61-84 *)
Definition transmit (s : tx_state) : res (Z * tx_state * list tx_event) :=
  if (tx_packet_count s <? length (tx_current s))%nat then packet_timing s
  else if cfg_bidi (tx_cfg s) && (tx_bidi_count s <=? 4)%nat then Ok (bidi_timing s)
  else
    let s' :=
      if (tx_size s =? 0)%nat
      then TxState (tx_slots s) (tx_begin s) (tx_size s) PIdle 0 0 (tx_cfg s)
      else TxState (tx_slots s) ((tx_begin s + 1) mod length (tx_slots s))
                   (tx_size s - 1) (PSlot (tx_begin s)) 0 0 (tx_cfg s) in
    packet_timing s'.

(** The public interface of tx::CrtpBase as one step function,
    tx/crtp_base.hpp:34-84 *)
Inductive tx_op := TInit (cfg : tx_config) | TBytes (bs : list Z) | TTransmit.

(** Result of a call: the duration returned by [transmit], the application calls *)
Definition tx_out := (option Z * list tx_event)%type.

Definition tx_step (o : tx_op) (s : tx_state) : res (tx_out * tx_state) :=
  match o with
  | TInit cfg => rbind (tx_init cfg s) (fun s' => Ok ((None, []), s'))
  | TBytes bs => rbind (tx_bytes bs s) (fun s' => Ok ((None, []), s'))
  | TTransmit => rbind (transmit s) (fun '(t, s', ev) => Ok ((Some t, ev), s'))
  end.

Fixpoint tx_run (ops : list tx_op) (s : tx_state) : res (list tx_out * tx_state) :=
  match ops with
  | [] => Ok ([], s)
  | o :: r =>
      rbind (tx_step o s) (fun '(x, s') =>
      rbind (tx_run r s') (fun '(xs, s'') => Ok (x :: xs, s'')))
  end.
