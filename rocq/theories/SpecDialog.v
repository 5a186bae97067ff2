(** Answers to CV accesses in RailCom channel 2 (RCN-217, app:pom): a second interpreter
    beside that of SpecLayout.v. Two values, a view and the answer that waits. *)
From Verif Require Import Prelude Address SpecCodec RxState Rx SpecRx SpecExec SpecConf SpecCv SpecBidi SpecLayout.

(** What is answered to an access, if [c] are the CVs afterwards *)
Definition content (x : access) (c : Z -> Z) : Z :=
  match x with
  | Check a _ | Store a _ => c a
  | CheckBit a _ k | StoreBit a _ k => Z.b2z (bit_of (c a) k)
  end.

(** CV29 bit 3 and CV28 bit 1 *)
Definition data_channel (c : Z -> Z) : bool := bit_of (c 28) 3 && bit_of (c 27) 1.

(** The answer waiting after the accesses among [xs]. Each replaces the last. There are
    none in service mode. *)
Fixpoint answer (xs : list seen) (v : view) (w : option Z) : option Z :=
  match xs with
  | [] => w
  | Told _ :: r => answer r v w
  | Access x :: r =>
      let c := after x (v_cvs v) in
      answer r (with_cvs c v) (if negb (v_service v) && data_channel (v_cvs v) then Some (content x c) else w)
  end.

(** ... after packet [p]. Another CV packet than the last makes the decoder forget. *)
Definition reply (ew : bool) (p : list Z) (v : view) (w : option Z) : option Z :=
  answer (snd (obey ew p v)) v
    (if list_eq_dec Z.eq_dec (v_last (fst (obey ew p v))) (v_last v) then w else None).

(** A long form CV packet for the own address *)
Definition own_cv_packet (c : Z -> Z) (p : list Z) : bool :=
  match atyp (address_of p) with
  | ATShort | ATLong =>
      has_number (own_address c) (aval (address_of p)) && (0xE0 <=? hd 0 (body_of p)) && (hd 0 (body_of p) <? 0xF0)
  | _ => false
  end.

(** What is said in the cutout behind [p] *)
Inductive said := Nothing | Received | Value (r : Z).
Definition speaks (p : list Z) (v : view) (w : option Z) : said :=
  if negb (data_channel (v_cvs v)) then Nothing
  else if list_eq_dec Z.eq_dec p (v_last v) then match w with Some r => Value r | None => Nothing end
  else Received.

(** As a transmission: the code word for an acknowledgement, or two code words that decode
    to the value *)
Definition transmitted (x : said) (ds : list (list Z)) : Prop :=
  match x with
  | Nothing => ds = []
  | Received => ds = [[0x0F]]
  | Value r => exists d, ds = [d] /\ carries 2 r d
  end.

(** The interpreter on the calls of the library. [h] is the last packet heard. *)
Definition turn (ew : bool) (o : op) (l : listener) (h : option (list Z)) (x : view * option Z) : view * option Z :=
  let '(v, w) := x in
  match o with
  | OExecute =>
      match (if l_fresh l then [] else firstn 1 (l_queue l)) with
      | p :: _ => (fst (obey ew p v), reply ew p v w)
      | [] => x
      end
  | OBiDi2 =>
      match h with
      | Some p =>
          if own_cv_packet (v_cvs v) p then match speaks p v w with Value _ => (v, None) | _ => x end
          else x
      | None => x
      end
  | _ => x
  end.
Fixpoint converse (ew : bool) (os : list op) (l : listener) (h : option (list Z)) (x : view * option Z) : view * option Z :=
  match os with
  | [] => x
  | o :: r => converse ew r (listen o l) (last_heard [o] l h) (turn ew o l h x)
  end.

(** The access a long form CV packet asks for *)
Definition asks (p : list Z) : list access :=
  let b := body_of p in
  if (0xE0 <=? hd 0 b) && (hd 0 b <? 0xF0) then request (hd 0 b) (nth 1 b 0) (nth 2 b 0) else [].

(** CVs are only written by CV packets for locomotives: not by a consist instruction, not
    in service mode *)
Definition writes (xs : list seen) : Prop := exists x, In (Access x) xs /\ is_writing x = true.
Definition by_cv_packet (ew : bool) (p : list Z) (v : view) : Prop :=
  writes (snd (obey ew p v)) -> v_service v = false /\ 0xE0 <= hd 0 (body_of p).
Fixpoint only_by_cv_packets (ew : bool) (ps : list (list Z)) (v : view) : Prop :=
  match ps with
  | [] => True
  | p :: r => by_cv_packet ew p v /\ only_by_cv_packets ew r (fst (obey ew p v))
  end.
