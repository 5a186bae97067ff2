(** When a decoder can follow a command station. Uses the listener of SpecRx.v. *)
From Verif Require Import Prelude Tx RxState Rx SpecRx SpecCv SpecBidi.

(** Channel 2 is only sent between a packet and the next duration, only dynamic information
    that exists is offered *)
Definition on_time (os : list op) : Prop := forall os1 o os2, os = os1 ++ o :: os2 ->
  match o with
  | OBiDi2 => l_fresh (listen_all os1 listener0) = true
  | ODatagram ds => Forall in_range ds
  | _ => True
  end.

(** execute() is called among any [n] durations in a row *)
Definition executes_every (n : nat) (os : list op) : Prop := forall a b c, os = a ++ b ++ c ->
  (n <= length (filter is_receive b))%nat -> In OExecute b.

(** A command station is given some packets, then transmits a number of intervals *)
Definition group : Type := list (list Z) * nat.
Definition calls (g : group) : list tx_op := map TBytes (fst g) ++ repeat TTransmit (snd g).

(** CV1 stays a number up to 127 *)
Definition sensible (x : access) : Prop :=
  match x with
  | Store a v => a = 0 -> v < 128
  | StoreBit a _ k => a = 0 -> k < 7
  | _ => True
  end.
