(** What a command station has to put on the track. Uses only the types of the
    configuration, the application calls and the public operations from Tx.v. *)
From Verif Require Import Prelude SpecCodec Tx.

(** Limits of a configuration *)
Definition config_ok (c : tx_config) : Prop :=
  17 <= num_preamble c <= 30 /\ 56 <= bit1_duration c <= 60 /\ 97 <= bit0_duration c <= 114.

(** Half-bit durations of a packet, and of the idle packet with its fixed timing *)
Definition packet_halves (c : tx_config) (bs : list Z) : list Z :=
  half_bits (bit1_duration c) (bit0_duration c) (track_bits (Z.to_nat (num_preamble c)) bs).
Definition idle_halves : list Z := half_bits 58 100 (track_bits 17 [0xFF; 0x00; 0xFF]).

(** Track outputs of a first and a second half bit *)
Definition first_half (c : tx_config) : tx_event := TrackOutputs (cfg_invert c) (negb (cfg_invert c)).
Definition second_half (c : tx_config) : tx_event := TrackOutputs (negb (cfg_invert c)) (cfg_invert c).

(** The five intervals of the cutout with the calls made at their beginning *)
Definition cutout (c : tx_config) : list (Z * list tx_event) :=
  [(29, [first_half c]);
   (51, [TrackOutputs false false; BiDiStart]);
   (113, [BiDiChannel1]);
   (261, [BiDiChannel2]);
   (17, [BiDiEnd])].

(** ** Abstract transmitter: a FIFO of packets, no storage, no pointer *)
Record atx := Atx {
  a_queue : list (list Z);  (* waiting packets *)
  a_now : list Z;           (* half bits still to be sent *)
  a_first : bool;           (* the next one is a first half bit *)
  a_cut : nat;              (* intervals of the cutout already done *)
  a_cfg : tx_config }.

Definition atx0 : atx := Atx [] idle_halves true 0 (TxConfig 17 58 100 false true).

Definition atx_half (t : Z) (r : list Z) (q : list (list Z)) (f : bool) (cut : nat) (c : tx_config)
  : tx_out * atx :=
  ((Some t, [if f then first_half c else second_half c]), Atx q r (negb f) cut c).

Definition atx_step (o : tx_op) (a : atx) : res (tx_out * atx) :=
  match o with
  | TInit c =>
      if (17 <=? num_preamble c) && (num_preamble c <=? 30)
         && (56 <=? bit1_duration c) && (bit1_duration c <=? 60)
         && (97 <=? bit0_duration c) && (bit0_duration c <=? 114)
      then Ok ((None, []), Atx (a_queue a) (a_now a) (a_first a) (a_cut a) c)
      else UB AssertFailed
  | TBytes bs =>
      if (length (a_queue a) =? 3)%nat then Ok ((None, []), a)
      else if (length bs <=? 18)%nat
      then Ok ((None, []), Atx (a_queue a ++ [packet_halves (a_cfg a) bs]) (a_now a)
                               (a_first a) (a_cut a) (a_cfg a))
      else UB AssertFailed
  | TTransmit =>
      let c := a_cfg a in
      match a_now a with
      | t :: r => Ok (atx_half t r (a_queue a) (a_first a) (a_cut a) c)
      | [] =>
          match (if cfg_bidi c then nth_error (cutout c) (a_cut a) else None) with
          | Some (t, ev) => Ok ((Some t, ev), Atx (a_queue a) [] (a_first a) (S (a_cut a)) c)
          | None =>
              match hd idle_halves (a_queue a) with
              | t :: r => Ok (atx_half t r (tl (a_queue a)) true 0 c)
              | [] => UB OutOfBounds
              end
          end
      end
  end.

Fixpoint atx_run (ops : list tx_op) (a : atx) : res (list tx_out * atx) :=
  match ops with
  | [] => Ok ([], a)
  | o :: r =>
      rbind (atx_step o a) (fun '(x, a') =>
      rbind (atx_run r a') (fun '(xs, a'') => Ok (x :: xs, a'')))
  end.

(** ** The same as a property of complete histories, for a fixed configuration *)

(** A history is the list of calls, annotated with what happened *)
Inductive entry :=
| Queued (bs : list Z)            (* packet accepted *)
| Refused (bs : list Z)           (* packet dropped *)
| Started (p : option (list Z))   (* next packet begins; None is the idle packet *)
| Tick (x : Z * list tx_event).   (* one interval on the track *)

Definition call_of (e : entry) : list tx_op :=
  match e with Queued bs | Refused bs => [TBytes bs] | Started _ => [] | Tick _ => [TTransmit] end.
Definition result_of (e : entry) : list tx_out :=
  match e with
  | Queued _ | Refused _ => [(None, [])]
  | Started _ => []
  | Tick (t, ev) => [(Some t, ev)]
  end.
Definition queued (h : list entry) : list (list Z) :=
  flat_map (fun e => match e with Queued bs => [bs] | _ => [] end) h.
Definition started (h : list entry) : list (option (list Z)) :=
  flat_map (fun e => match e with Started p => [p] | _ => [] end) h.
Definition sent (h : list entry) : list (list Z) :=
  flat_map (fun e => match e with Started (Some bs) => [bs] | _ => [] end) h.
Definition ticks (h : list entry) : list (Z * list tx_event) :=
  flat_map (fun e => match e with Tick x => [x] | _ => [] end) h.

(** Half bits with alternating outputs, beginning with a first half *)
Fixpoint alternate (c : tx_config) (f : bool) (ts : list Z) : list (Z * list tx_event) :=
  match ts with
  | [] => []
  | t :: r => (t, [if f then first_half c else second_half c]) :: alternate c (negb f) r
  end.

(** Everything on the track for one packet *)
Definition on_track (c : tx_config) (p : option (list Z)) : list (Z * list tx_event) :=
  alternate c true (match p with None => idle_halves | Some bs => packet_halves c bs end)
  ++ (if cfg_bidi c then cutout c else []).

(** What has to be on the track after history [h]; the station starts with an idle packet *)
Definition track (c : tx_config) (h : list entry) : list (Z * list tx_event) :=
  flat_map (on_track c) (None :: started h).

(** [waiting h ws]: the packets [ws] are accepted but not started, in this order *)
Definition waiting (h : list entry) (ws : list (list Z)) : Prop := queued h = sent h ++ ws.

(** Each entry is justified by the history before it *)
Definition justified (c : tx_config) (h : list entry) (e : entry) : Prop :=
  exists ws, waiting h ws /\
  match e with
  | Queued bs => (length ws < 3)%nat
  | Refused bs => length ws = 3%nat
  | Started None => ws = [] /\ ticks h = track c h
  | Started (Some bs) => hd_error ws = Some bs /\ ticks h = track c h
  | Tick x => exists rest, ticks h ++ x :: rest = track c h
  end.

Definition history_ok (c : tx_config) (h : list entry) : Prop :=
  forall h1 e h2, h = h1 ++ e :: h2 -> justified c h1 e.

(** Calls other than a configuration, with packets that fit *)
Definition plain_op (o : tx_op) : Prop :=
  match o with TInit _ => False | TBytes bs => (length bs <= 18)%nat | TTransmit => True end.

(** Outcome of a run without the final state *)
Definition outcome {A S} (x : res (A * S)) : res A :=
  match x with Ok (o, _) => Ok o | UB r => UB r end.


(** Points in time, counted from the start of the list, at which the calls are made *)
Fixpoint call_times (now : Z) (l : list (Z * list tx_event)) : list (tx_event * Z) :=
  match l with
  | [] => []
  | (t, ev) :: r => map (fun e => (e, now)) ev ++ call_times (now + t) r
  end.

(** Output pairs in the order set *)
Definition outputs (xs : list tx_out) : list (bool * bool) :=
  flat_map (fun x => flat_map (fun e => match e with TrackOutputs n p => [(n, p)] | _ => [] end) (snd x)) xs.
(** Application calls other than the track outputs *)
Definition callbacks (xs : list tx_out) : list tx_event :=
  flat_map (fun x => flat_map (fun e => match e with TrackOutputs _ _ => [] | _ => [e] end) (snd x)) xs.
(** Returned durations with the calls made *)
Definition intervals (xs : list tx_out) : list (Z * list tx_event) :=
  flat_map (fun x => match fst x with Some t => [(t, snd x)] | None => [] end) xs.

(** What may follow: the outputs flip with every half bit and start with the
    configured phase; with BiDi they are both low in a cutout, which comes after a
    first half and before a first half *)
Definition next_outputs (c : tx_config) (prev : option (bool * bool)) (next : bool * bool) : Prop :=
  let i := cfg_invert c in
  match prev with
  | None => next = (i, negb i)
  | Some (false, false) => next = (i, negb i)
  | Some (n, p) =>
      next = (p, n) \/ (cfg_bidi c = true /\ (n, p) = (i, negb i) /\ next = (false, false))
  end.
Fixpoint flipping (c : tx_config) (prev : option (bool * bool)) (os : list (bool * bool)) : Prop :=
  match os with
  | [] => True
  | o :: r => next_outputs c prev o /\ flipping c (Some o) r
  end.

(** Packets whose half bits are all among the first [n] intervals on the track *)
Fixpoint finished (c : tx_config) (ps : list (option (list Z))) (n : nat) : list (list Z) :=
  match ps with
  | [] => []
  | p :: r =>
      let hs := match p with None => idle_halves | Some bs => packet_halves c bs end in
      if (n <? length hs)%nat then []
      else match p with None => [0xFF; 0x00; 0xFF] | Some bs => bs end
           :: finished c r (n - length hs - (if cfg_bidi c then 5 else 0))
  end.
