(** A decoder at the track of a station that also sends logon packets *)
From Verif Require Import Prelude Address SpecCodec RxState Rx SpecRx SpecExec SpecConf SpecCv SpecLogon SpecLayout SpecNode.

(** A packet the station may send, logon packets among them *)
Definition sendable (bs : list Z) : Prop := Forall byte bs /\ (3 <= length bs <= 18)%nat /\ xor_all bs = 0.

(** All packets that arrive during the calls [os] *)
Fixpoint arrived (os : list op) (l : listener) : list (list Z) :=
  match os with
  | [] => []
  | o :: r => match completed o l with Some bs => [bs] | None => [] end ++ arrived r (listen o l)
  end.

(** The packets among inputs: heard at once, or taken from the queue *)
Definition heard_in (xs : list input) : list (list Z) := flat_map (fun x => match x with Heard p => [p] | _ => [] end) xs.
Definition taken_in (xs : list input) : list (list Z) := flat_map (fun x => match x with Taken p => [p] | _ => [] end) xs.

(** Decoder [id] is handed out address [A]: the packets SELECT and ASSIGN for it *)
Record offer := Offer { of_id : list Z; of_select : list Z; of_assign : list Z; of_address : address }.
Definition proper (x : offer) : Prop :=
  says (of_select x) (Select (of_id x)) /\ undamaged (of_select x) /\
  exists a b, says (of_assign x) (Assign (of_id x) a b) /\ undamaged (of_assign x) /\
    understood a b (nth 9 (of_assign x) 0) = Some (of_address x) /\ aval (of_address x) <> 0.
Definition offered (x : offer) : list (list Z) := [of_select x; of_assign x].

(** Nothing was passed on to the application but CV accesses *)
Definition untold (ys : list seen) : Prop := Forall (fun y => match y with Access _ => True | Told _ => False end) ys.

(** Behind each logon packet channel 2 is sent before the next duration *)
Definition fetched (os : list op) : Prop := forall os1 t os2, os = os1 ++ OReceive t :: os2 -> served os1.
