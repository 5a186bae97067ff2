(** How exactly a decoder board measures durations, and how often it looks at packets *)
From Verif Require Import Prelude Tx RxState Rx SpecRx SpecStation SpecPace.

(** [t] was measured for [d], with an error of at most one in [k] *)
Definition off (k d t : Z) : Prop := k * Z.abs (t - d) <= d.

(** execute() is called among any 90 durations in a row, or whenever the durations since
    the last call add up to the shortest time between the ends of two packets, less the
    error *)
Definition awake (k : Z) (c : tx_config) (dos : list op) : Prop :=
  executes_every 90 dos \/ exists W, k * W <= (k - 1) * shortest_on_wires c /\ executes_within W dos.
