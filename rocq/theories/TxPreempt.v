(** packet() and bytes() of the transmitter as a sequence of small steps between which
    transmit() may run (include/dcc/tx/crtp_base.hpp).

    Tx.v treats every call as uninterrupted. In a command station transmit() runs from a
    timer interrupt and packet() in thread mode (examples/stm32/src/command_station.cpp:17-20,
    37-65), without a lock. Here bytes() is a program whose steps are: one read of
    the number of elements of the deque, one copy of the configuration (bytes2timings takes
    it by value, tx/timings.hpp:35-36), the construction of an empty element in the free
    slot, the copy of one duration into it, the increment of the number of elements. The
    conversion itself only works on local data. An interrupt is one step. How
    ztl::inplace_deque (not in the repository) counts its elements is not known; the
    increment is taken to be one step. *)
From Verif Require Import Prelude Packets Tx.

(** Where thread mode is, tx/crtp_base.hpp:52-56 *)
Inductive stage :=
| SIdle                                            (* no call in progress *)
| SFull (bs : list Z)                              (* next: full(_deque), 53 *)
| SConfig (bs : list Z)                            (* next: assert, copy of _cfg, 54-55 *)
| SBuilt (bs ts : list Z)                          (* timings are built, 55 *)
| SCopy (bs ts : list Z) (k : nat).                (* k of them are in the slot, 55 *)

(** A store into the slot behind the last element *)
Definition put_slot (v : list Z) (s : tx_state) : tx_state :=
  TxState (list_set (tx_slots s) ((tx_begin s + tx_size s) mod length (tx_slots s)) v)
    (tx_begin s) (tx_size s) (tx_packet s) (tx_packet_count s) (tx_bidi_count s) (tx_cfg s).
(** The increment of the number of elements *)
Definition publish (s : tx_state) : tx_state :=
  TxState (tx_slots s) (tx_begin s) (S (tx_size s)) (tx_packet s) (tx_packet_count s) (tx_bidi_count s) (tx_cfg s).

(** One step of bytes(), tx/crtp_base.hpp:52-56 *)
Definition bytes_step (g : stage) (s : tx_state) : res (stage * tx_state) :=
  match g with
  | SIdle => Ok (SIdle, s)
  | SFull bs => Ok (if (tx_size s =? tx_deque_size)%nat then SIdle else SConfig bs, s)
  | SConfig bs =>
      if (length bs <=? max_packet_size)%nat
      then rbind (bytes2timings bs (tx_cfg s)) (fun ts => Ok (SBuilt bs ts, s))
      else UB AssertFailed
  | SBuilt bs ts => Ok (SCopy bs ts 0, put_slot [] s)
  | SCopy bs ts k =>
      if (k <? length ts)%nat then Ok (SCopy bs ts (S k), put_slot (firstn (S k) ts) s)
      else Ok (SIdle, publish s)
  end.

(** Thread mode calls bytes() (there is one thread: none while a call is in progress), thread
    mode makes a step, the interrupt calls transmit() *)
Inductive xop := XCall (bs : list Z) | XStep | XTick.

Definition xstep (o : xop) (x : stage * tx_state) : res (list (Z * list tx_event) * (stage * tx_state)) :=
  let '(g, s) := x in
  match o with
  | XCall bs => Ok ([], (match g with SIdle => SFull bs | _ => g end, s))
  | XStep => rbind (bytes_step g s) (fun y => Ok ([], y))
  | XTick => rbind (transmit s) (fun '(t, s', ev) => Ok ([(t, ev)], (g, s')))
  end.
Fixpoint xrun (xs : list xop) (x : stage * tx_state) : res (list (Z * list tx_event) * (stage * tx_state)) :=
  match xs with
  | [] => Ok ([], x)
  | o :: r => rbind (xstep o x) (fun '(a, y) => rbind (xrun r y) (fun '(b, z) => Ok (a ++ b, z)))
  end.
