(** Calls that are interrupted take effect at one moment *)
From Verif Require Import Prelude Tx TxPreempt.

(** [placed xs c ops]: [ops] are uninterrupted calls that explain the interleaving [xs].
    Every interrupt is there, in order. Every packet is there once, in one of the steps
    between its call and its return. [c] is the call in progress, if any. *)
Inductive placed : list xop -> option (list Z) -> list tx_op -> Prop :=
| PNone : placed [] None []
| PTick xs c ops : placed xs c ops -> placed (xs ++ [XTick]) c (ops ++ [TTransmit])
| PCall xs ops bs : placed xs None ops -> placed (xs ++ [XCall bs]) (Some bs) ops
| PBusy xs c ops bs : placed xs (Some c) ops -> placed (xs ++ [XCall bs]) (Some c) ops
| PStep xs c ops : placed xs c ops -> placed (xs ++ [XStep]) c ops
| PEffect xs c ops : placed xs (Some c) ops -> placed (xs ++ [XStep]) None (ops ++ [TBytes c]).
