(** A decoder that is switched on while a station is sending *)
From Verif Require Import Prelude SpecTx Tx SpecRx.

(** Preamble bits of a packet, of an idle packet in between *)
Definition preamble (c : tx_config) (p : option (list Z)) : nat :=
  match p with None => 17 | Some _ => Z.to_nat (num_preamble c) end.

(** Packets that are lost to a decoder that receives everything but the first [m]
    intervals: those of which fewer than 20 half bits of the preamble are left *)
Fixpoint missed (c : tx_config) (ps : list (option (list Z))) (m : nat) : nat :=
  match ps with
  | [] => 0
  | p :: r =>
      if (m + 20 <=? 2 * preamble c p)%nat then 0
      else S (missed c r (m - length (on_track c p)))
  end.

(** Packets of a station: idle ones, and such as a decoder accepts *)
Definition acceptable (p : option (list Z)) : Prop := match p with None => True | Some bs => packet_ok bs end.
