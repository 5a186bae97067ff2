(** Emergency stop of all locomotives *)
From Verif Require Import Prelude Address SpecCodec RxState Rx SpecRx SpecExec.

(** What the application is told about driving *)
Definition is_drive (e : event) : bool := match e with EDirection _ _ | ESpeed _ _ => true | _ => false end.
Definition drives (es : list event) : list event := filter is_drive es.

(** Emergency stop for all: address 0, with 126 or with 14 and 28 speed steps (RCN-212) *)
Definition stops_all (p : list Z) : Prop :=
  for_locos p /\ aval (address_of p) = 0 /\
  ((exists b t, body_of p = 0x3F :: b :: t /\ b mod 128 = 1) \/
   (exists b t, body_of p = b :: t /\ 0x40 <= b < 0x80 /\ b mod 16 = 1)).

(** The instruction of the reset packet *)
Definition resets (p : list Z) : Prop := for_locos p /\ hd 1 (body_of p) = 0.

(** Instructions that set a speed *)
Definition sets_speed (p : list Z) : Prop :=
  for_locos p /\ (In (hd 0 (body_of p)) [0x3C; 0x3F] \/ 0x40 <= hd 0 (body_of p) < 0x80).

(** A decoder switched on with [i] runs through [dos] without fault. The last its application
    has been told about driving is the emergency stop. *)
Definition halted {I : Type} (E : Env I) (i : I) (dos : list op) : Prop :=
  exists s es before, run E (OInit :: dos) (st0 i) = Ok (tt, s, es) /\ drives es = before ++ [ESpeed 0 (-1)].
