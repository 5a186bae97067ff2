(** Programming on the programming track (RCN-216 direct mode): what is sent, what is read,
    written and acknowledged. *)
From Verif Require Import Prelude Address Packets RxState Rx SpecConf SpecCv SpecLayout.

(** The service mode packet that asks for an access *)
Definition service_packet (x : access) : res (list Z) :=
  match x with
  | Check a v => make_cv_access_long_verify_service_packet a v
  | Store a v => make_cv_access_long_write_service_packet a v
  | CheckBit a b k => make_cv_access_long_verify_bit_service_packet a b k
  | StoreBit a b k => make_cv_access_long_write_bit_service_packet a b k
  end.

Definition access_ok (x : access) : Prop :=
  0 <= target x < 1024 /\
  match x with
  | Check _ v | Store _ v => 0 <= v < 256
  | CheckBit _ _ k | StoreBit _ _ k => 0 <= k < 8
  end.

(** One turn of a programmer: a packet several times, then any number of resets *)
Record turn := Turn { t_access : access; t_times : nat; t_resets : nat }.
Definition turn_sent (t : turn) (ps : list (list Z)) : Prop :=
  (2 <= t_times t)%nat /\ access_ok (t_access t) /\
  exists p, service_packet (t_access t) = Ok p /\ ps = repeat p (t_times t) ++ repeat make_reset_packet (t_resets t).

(** No turn asks for the same as the one before *)
Fixpoint changing (ts : list turn) : Prop :=
  match ts with
  | a :: ((b :: _) as r) => t_access a <> t_access b /\ changing r
  | _ => True
  end.

(** What a decoder with CVs [c] does: every access once, acknowledged if it is true then. A
    locked decoder does nothing but to write CV15. *)
Fixpoint programmed (xs : list access) (c : Z -> Z) : (Z -> Z) * list seen :=
  match xs with
  | [] => (c, [])
  | x :: r =>
      let ok := permitted (cvs_locked (switches c)) x in
      let c1 := if ok then after x c else c in
      let '(c2, l) := programmed r c1 in
      (c2, (if ok then Access x :: if agrees x c1 then [Told EServiceAck] else [] else []) ++ l)
  end.

(** Reading a CV bit by bit: is it a one? At the end the byte is compared. *)
Definition reading (a v : Z) : list access :=
  map (CheckBit a true) [7; 6; 5; 4; 3; 2; 1; 0] ++ [Check a v].
(** The sum of the bits that were acknowledged *)
Fixpoint read_out (l : list seen) : Z :=
  match l with
  | Access (CheckBit _ true k) :: ((Told EServiceAck :: _) as r) => 2 ^ k + read_out r
  | _ :: r => read_out r
  | [] => 0
  end.
(** The answer to the last question was yes *)
Definition confirmed_last (l : list seen) : bool :=
  match rev l with Told EServiceAck :: Access (Check _ _) :: _ => true | _ => false end.

(** The session ends with nothing, or with one packet that is neither a reset, a broadcast
    nor a service mode packet: the decoder leaves service mode *)
Definition ending (after : list (list Z)) : Prop :=
  match after with
  | [] => True
  | [p] => nth 0 p 0 <> 0 /\ nth 0 p 0 / 16 <> 7
  | _ => False
  end.
Definition farewell (after : list (list Z)) : list seen :=
  match after with [] => [] | _ => [Told (EServiceModeHook false)] end.
