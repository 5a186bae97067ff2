(** How often execute() is called, in durations. Uses the listener of SpecRx.v. *)
From Verif Require Import Prelude Tx RxState Rx SpecRx SpecStation.

(** Sum of the durations received *)
Definition elapsed (os : list op) : Z :=
  fold_right (fun o n => match o with OReceive t => t + n | _ => n end) 0 os.

(** execute() is called whenever the durations since the last call add up to [W] *)
Definition executes_within (W : Z) (os : list op) : Prop := forall a b c, os = a ++ b ++ c ->
  W <= elapsed b -> In OExecute b.

(** The shortest time from the end of a packet of a station to the end of the next one:
    with the preamble, 17 ones (8 of them in an address or data byte and 8 in the check
    byte, or the other way round, and the end bit) and 11 zeros; an idle packet has its
    own timing. Behind a packet comes the cutout. *)
Definition shortest (c : tx_config) : Z :=
  Z.min (2 * (34 * 58 + 11 * 100)) (2 * ((num_preamble c + 17) * bit1_duration c + 11 * bit0_duration c))
  + (if cfg_bidi c then 471 else 0).

(** execute() is called among any 90 intervals in a row (95 with cutouts), or whenever they
    add up to that time *)
Definition paced (c : tx_config) (os : list op) : Prop :=
  executes_every (if cfg_bidi c then 95 else 90) os \/ executes_within (shortest c) os.

(** The same if every interval takes one tick longer *)
Definition shortest_on_wires (c : tx_config) : Z :=
  Z.min (2 * (34 * 59 + 11 * 101)) (2 * ((num_preamble c + 17) * (bit1_duration c + 1) + 11 * (bit0_duration c + 1)))
  + (if cfg_bidi c then 476 else 0).
