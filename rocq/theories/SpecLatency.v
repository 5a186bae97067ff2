(** How long a packet waits in the command station *)
From Verif Require Import Prelude SpecCodec Tx SpecTx.

(** Microseconds on the track *)
Definition lasting (l : list (Z * list tx_event)) : Z := fold_right Z.add 0 (map fst l).

(** A packet of 18 bytes, all bits zero, with its cutout *)
Definition longest (c : tx_config) : Z :=
  2 * (bit1_duration c * (num_preamble c + 1) + bit0_duration c * (9 * 18)) + (if cfg_bidi c then 471 else 0).

(** Queued packets that are over, with their cutouts, after [n] intervals of the packets [ps] *)
Fixpoint delivered (c : tx_config) (ps : list (option (list Z))) (n : nat) : list (list Z) :=
  match ps with
  | [] => []
  | p :: r =>
      if (n <? length (on_track c p))%nat then []
      else match p with Some bs => [bs] | None => [] end ++ delivered c r (n - length (on_track c p))
  end.

(** Calls with their results: between two packets handed over the station transmits for [t]
    microseconds or more; [now] of them have gone by since the last one *)
Fixpoint apart (t now : Z) (l : list (tx_op * tx_out)) : bool :=
  match l with
  | [] => true
  | (TBytes _, _) :: r => (t <=? now) && apart t 0 r
  | (_, (Some d, _)) :: r => apart t (now + d) r
  | (_, (None, _)) :: r => apart t now r
  end.
