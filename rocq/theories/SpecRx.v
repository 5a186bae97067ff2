(** What a decoder has to hear on the track. Uses only the types of the library
    state and the public operations from RxState.v and Rx.v. *)
From Verif Require Import Prelude Address SpecCodec RxState Rx.

(** RCN-210: durations taken as a one, as a zero, as nothing *)
Definition half_bit (t : Z) : option bool :=
  if (t <? 52) || (10000 <? t) then None
  else if t <=? 64 then Some true
  else if t <? 90 then None else Some false.

(** ** A receiver without registers: it remembers every half bit since it last gave
    up, and reads the whole of them anew each time *)

Fixpoint ones (hs : list bool) : nat :=
  match hs with true :: r => S (ones r) | _ => O end.
Fixpoint after_ones (hs : list bool) : list bool :=
  match hs with true :: r => after_ones r | _ => hs end.
(** Second half of each bit *)
Fixpoint samples (body : list bool) : list bool :=
  match body with _ :: b :: r => b :: samples r | _ => [] end.
Definition byte_of (bits : list bool) : Z := fold_left (fun a x => 2 * a + Z.b2z x) bits 0.
(** Bytes, each followed by a zero, the last one by a one. Tells whether the one came. *)
Fixpoint bytes_of (bits : list bool) : list Z * bool :=
  match bits with
  | b7 :: b6 :: b5 :: b4 :: b3 :: b2 :: b1 :: b0 :: more =>
      let b := byte_of [b7; b6; b5; b4; b3; b2; b1; b0] in
      match more with
      | [] => ([b], false)
      | true :: _ => ([b], true)
      | false :: rest => let '(bs, stop) := bytes_of rest in (b :: bs, stop)
      end
  | _ => ([], false)
  end.

(** Preamble of at least ten ones, start bit, bytes *)
Inductive verdict := Listening | Lost | Packet (bs : list Z).
Definition reading (hs : list bool) : verdict :=
  match after_ones hs with
  | [] => Listening
  | _ :: r =>
      if (ones hs <? 20)%nat then Lost
      else match r with
           | [] => Listening
           | _ :: body =>
               let '(bs, stop) := bytes_of (samples body) in
               if stop then Packet bs else Listening
           end
  end.
(** Bytes of the frame so far, complete or not *)
Definition frame_so_far (hs : list bool) : list Z :=
  match after_ones hs with
  | _ :: _ :: body => fst (bytes_of (samples body))
  | _ => []
  end.
(** The last half bit is one that is looked at *)
Definition looked_at (hs : list bool) : bool :=
  match after_ones hs with
  | _ :: _ :: body => Nat.even (length body)
  | _ => true
  end.

(** A packet worth keeping *)
Definition valid_packet (bs : list Z) : bool := (xor_all bs =? 0) && (3 <=? length bs)%nat.
(** Logon packets are dealt with at once, all others are queued *)
Definition is_logon (bs : list Z) : bool := match bs with b :: _ => b =? 254 | [] => false end.

Record listener := Listener {
  l_heard : list bool;      (* half bits since it last gave up *)
  l_queue : list (list Z);  (* packets not executed *)
  l_fresh : bool;           (* the last call completed a packet *)
  l_on : bool }.            (* enabled *)

Definition listener0 : listener := Listener [] [] false false.

Definition hear (b : bool) (l : listener) : listener :=
  let hs := l_heard l ++ [b] in
  if looked_at hs && (length (l_queue l) =? 31)%nat then Listener [] (l_queue l) false (l_on l)
  else
    match reading hs with
    | Listening => Listener hs (l_queue l) false (l_on l)
    | Lost => Listener [] (l_queue l) false (l_on l)
    | Packet bs =>
        if valid_packet bs
        then Listener [] (if is_logon bs then l_queue l else l_queue l ++ [bs]) true (l_on l)
        else Listener [] (l_queue l) false (l_on l)
    end.

Definition listen (o : op) (l : listener) : listener :=
  match o with
  | OReceive t =>
      match half_bit t with
      | None => Listener (l_heard l) (l_queue l) false (l_on l)
      | Some b => hear b l
      end
  | OExecute => if l_fresh l then l else Listener (l_heard l) (tl (l_queue l)) false (l_on l)
  | OEnable => Listener (l_heard l) (l_queue l) (l_fresh l) true
  | ODisable => if l_on l then Listener [] (l_queue l) (l_fresh l) false else l
  | _ => l
  end.

Definition listen_all (os : list op) (l : listener) : listener := fold_left (fun l o => listen o l) os l.

(** ** The same as a grammar *)

(** Two half bits per bit of which the first may be anything *)
Inductive pairs : list bool -> list bool -> Prop :=
| pairs_nil : pairs [] []
| pairs_cons : forall x b hs bs, pairs hs bs -> pairs (x :: b :: hs) (b :: bs).

(** The bits of a packet after its start bit *)
Definition frame_bits (bs : list Z) : list bool :=
  tl (flat_map (fun b => false :: msb_first b) bs ++ [true]).

(** [sounds_like hs bs]: the half bits are those of packet [bs] *)
Definition sounds_like (hs : list bool) (bs : list Z) : Prop :=
  exists n x body, (20 <= n)%nat /\ pairs body (frame_bits bs) /\
  hs = repeat true n ++ false :: x :: body.

(** Half bits among the durations given to receive *)
Definition half_bits_in (os : list op) : list bool :=
  flat_map (fun o => match o with
                     | OReceive t => match half_bit t with Some b => [b] | None => [] end
                     | _ => []
                     end) os.

(** A valid packet that is queued *)
Definition packet_ok (bs : list Z) : Prop :=
  Forall byte bs /\ (3 <= length bs <= 18)%nat /\ xor_all bs = 0 /\ is_logon bs = false.

(** [plays ts n bs]: [ts] is some signal of packet [bs] with [n] preamble bits, each
    half bit with its own tolerated duration *)
Definition plays (ts : list Z) (n : nat) (bs : list Z) : Prop :=
  map half_bit ts = map Some (flat_map (fun b => [b; b]) (track_bits n bs)).

(** Number and class of the address a packet starts with *)
Definition address_of (bs : list Z) : address :=
  match bs with
  | b :: r =>
      match first_byte_class b with
      | ATLong => Addr ((b - 192) * 256 + hd 0 r) ATLong false
      | c => Addr b c false
      end
  | [] => Addr 0 ATUnknown false
  end.

(** ** Logs of a listener *)

(** Packet completed by a call, if any *)
Definition completed (o : op) (l : listener) : option (list Z) :=
  match o with
  | OReceive t =>
      match half_bit t with
      | None => None
      | Some b =>
          let hs := l_heard l ++ [b] in
          if looked_at hs && (length (l_queue l) =? 31)%nat then None
          else match reading hs with
               | Packet bs => if valid_packet bs then Some bs else None
               | _ => None
               end
      end
  | _ => None
  end.

(** All packets queued during the calls [os], and all packets taken out of the queue *)
Fixpoint heard (os : list op) (l : listener) : list (list Z) :=
  match os with
  | [] => []
  | o :: r =>
      match completed o l with
      | Some bs => if is_logon bs then [] else [bs]
      | None => []
      end ++ heard r (listen o l)
  end.
Fixpoint taken (os : list op) (l : listener) : list (list Z) :=
  match os with
  | [] => []
  | o :: r =>
      match o with
      | OExecute => if l_fresh l then [] else firstn 1 (l_queue l)
      | _ => []
      end ++ taken r (listen o l)
  end.

Definition is_receive (o : op) : bool := match o with OReceive _ => true | _ => false end.

(** The queue has room before each of the calls [os] *)
Definition never_full (os : list op) (l : listener) : Prop :=
  forall os1 os2, os = os1 ++ os2 -> (length (l_queue (listen_all os1 l)) < 31)%nat.
