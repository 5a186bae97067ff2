(** Orders to drive, repeated and in any order *)
From Verif Require Import Prelude Address SpecCodec RxState Rx SpecRx SpecExec SpecConf SpecCv SpecLayout.

(** What can be set on a locomotive *)
Inductive knob := Direction | SpeedStep | Fn (k : Z) | Heading.

Definition knob_eqb (a b : knob) : bool :=
  match a, b with
  | Direction, Direction | SpeedStep, SpeedStep | Heading, Heading => true
  | Fn j, Fn k => j =? k
  | _, _ => false
  end.

(** Settings a call makes: the locomotive's number, what is set, to which value *)
Definition settings (e : event) : list (Z * knob * Z) :=
  match e with
  | EDirection n d => [(n, Direction, Z.b2z d)]
  | ESpeed n s => [(n, SpeedStep, s)]
  | EFunction n mask state =>
      flat_map (fun k => if bit_of mask (Z.of_nat k) then [(n, Fn (Z.of_nat k), Z.b2z (bit_of state (Z.of_nat k)))] else []) (seq 0 32)
  | EEastWest n (Some d) => [(n, Heading, Z.b2z d)]
  | _ => []
  end.

(** The last setting of a knob, if there is one *)
Fixpoint latest (l : list (Z * knob * Z)) (n : Z) (k : knob) : option Z :=
  match l with
  | [] => None
  | (n', k', x) :: r =>
      match latest r n k with
      | Some y => Some y
      | None => if (n' =? n) && knob_eqb k' k then Some x else None
      end
  end.

(** What an application that has seen [xs] shows *)
Definition panel (xs : list seen) : Z -> knob -> option Z :=
  latest (flat_map (fun x => match x with Told e => settings e | Access _ => [] end) xs).

Section Orders.
  (** The application wants to know east and west; the decoder's CVs *)
  Variables (ew : bool) (c : Z -> Z).

  (** A packet for somebody else, or one that drives *)
  Definition drives (p : list Z) : Prop :=
    match recipient c p, body_of p with
    | Some _, b0 :: _ => 0x20 <= b0 < 0xE0
    | _, _ => True
    end.

  (** Settings a packet orders *)
  Definition orders (p : list Z) : Z -> knob -> option Z :=
    match recipient c p, body_of p with
    | Some n, b0 :: t => panel (map Told (driving ew c n b0 t))
    | _, _ => fun _ _ => None
    end.

  (** Two packets do not order different values of the same knob *)
  Definition agree (p q : list Z) : Prop := forall n k x y, orders p n k = Some x -> orders q n k = Some y -> x = y.
End Orders.
