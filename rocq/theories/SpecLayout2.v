(** From commands of a command station to what an application sees: no packets, no queue,
    no counting of repetitions *)
From Verif Require Import Prelude Address SpecCodec CodecProofs2 RxState Rx SpecRx SpecExec SpecConf SpecCv SpecLayout.

(** A command to locomotive [n] *)
Definition order : Type := Z * loco_cmd.
Definition order_ok (o : order) : Prop := 0 <= fst o <= 10239 /\ cmd_ok (snd o).

Definition is_write (d : loco_cmd) : bool := match d with CWrite _ _ | CWriteBit _ _ _ => true | _ => false end.

(** The packets of an order: a write is sent twice *)
Definition packets_for (o : order) (ps : list (list Z)) : Prop :=
  exists p, generate (loco (fst o)) (snd o) = Ok p /\ ps = repeat p (if is_write (snd o) then 2 else 1).

Definition not_idle (p : list Z) : bool := negb (nth 0 p 0 =? 0xFF).

Definition cmd_eq_dec : forall a b : loco_cmd, {a = b} + {a <> b}.
Proof. decide equality; first [apply Z.eq_dec | apply Bool.bool_dec | apply (list_eq_dec Z.eq_dec)]. Defined.

(** The decoder with CVs [c] obeys orders to locomotive [n] *)
Definition answers (c : Z -> Z) (n : Z) : bool :=
  (n =? 0) || has_number (own_address c) n || has_number (consist_address c) n.

(** Driving and functions *)
Definition told (c : Z -> Z) (n : Z) (d : loco_cmd) : list event :=
  match d with
  | CSpeed126 s => speed126_calls (addresses c) n s
  | CSpeedFunctions s f more => combined true n 0 (f :: more) ++ speed126_calls (addresses c) n s
  | CSpeed28 s => speed28_calls (addresses c) (f0_exception (switches c)) n (64 + s)
  | CF4_F0 s => [if f0_exception (switches c) then EFunction n 0x1E s else functions n 0 5 s]
  | CF8_F5 s => [functions n 5 4 s]
  | CF12_F9 s => [functions n 9 4 s]
  | CF20_F13 s => [functions n 13 8 s]
  | CF28_F21 s => [functions n 21 8 s]
  | _ => []
  end.

(** CVs and the last CV command that was counted *)
Definition memory : Type := (Z -> Z) * option order.

(** CV access. The same write again only compares, the same bit write again does nothing. *)
Definition wanted (again : bool) (d : loco_cmd) : list access :=
  match d with
  | CVerify a b => [Check a b]
  | CWrite a b => if again then [Check a b; Check a b] else [Store a b]
  | CVerifyBit a b k => [CheckBit a b k]
  | CWriteBit a b k => if again then [] else [StoreBit a b k]
  | _ => []
  end.
Definition same (last : option order) (n : Z) (d : loco_cmd) : bool :=
  match last with
  | Some (n', d') => (n' =? n) && if cmd_eq_dec d' d then true else false
  | None => false
  end.
Definition on_cvs (d : loco_cmd) : bool :=
  match d with CVerify _ _ | CWrite _ _ | CVerifyBit _ _ _ | CWriteBit _ _ _ => true | _ => false end.

(** One order. Orders on CVs under the number of the consist are ignored. *)
Definition carry_out (o : order) (mem : memory) : memory * list seen :=
  let '(n, d) := o in
  let '(c, last) := mem in
  if negb (answers c n) then (mem, [])
  else if negb (on_cvs d) then (mem, map Told (told c n d))
  else if negb (n =? 0) && (n =? aval (consist_address c)) then (mem, [])
  else
    let xs := filter (permitted (cvs_locked (switches c))) (wanted (same last n d) d) in
    ((fold_left (fun c x => after x c) xs c, Some (n, d)), map Access xs).

Fixpoint carry_out_all (os : list order) (mem : memory) : memory * list seen :=
  match os with
  | [] => (mem, [])
  | o :: r => let '(m1, a) := carry_out o mem in let '(m2, b) := carry_out_all r m1 in (m2, a ++ b)
  end.
