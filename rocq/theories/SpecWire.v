(** Time on the track: when transmissions of decoders begin and end, and the mean voltage.
    Uses the calls of SpecTx.v. *)
From Verif Require Import Prelude Tx SpecTx.

(** Microseconds that bytes take at [baud] bits per second, with a start and a stop bit each *)
Definition airtime (baud : Z) (bs : list Z) : Z := 10 * Z.of_nat (length bs) * 1000000 / baud.

(** Mean voltage: durations with the sign of the outputs, which hold until they are set again *)
Definition sign (o : bool * bool) : Z := Z.b2z (snd o) - Z.b2z (fst o).
Definition set_outputs (o : bool * bool) (ev : list tx_event) : bool * bool :=
  fold_left (fun o e => match e with TrackOutputs n p => (n, p) | _ => o end) ev o.
Fixpoint charge (o : bool * bool) (l : list (Z * list tx_event)) : Z :=
  match l with
  | [] => 0
  | (t, ev) :: r => t * sign (set_outputs o ev) + charge (set_outputs o ev) r
  end.
(** Sign of a first half bit *)
Definition polarity (c : tx_config) : Z := if cfg_invert c then -1 else 1.
(** Cutouts begun *)
Definition cutouts (l : list (Z * list tx_event)) : Z :=
  Z.of_nat (length (filter (fun x => existsb (fun e => match e with BiDiStart => true | _ => false end) (snd x)) l)).

(** The lists agree as far as both reach *)
Definition agree {X} (a b : list X) : Prop :=
  forall i x y, nth_error a i = Some x -> nth_error b i = Some y -> x = y.
