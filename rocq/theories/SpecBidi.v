(** BiDi transmissions of a decoder (RCN-217, RCN-218). Uses only the fields of the decoder
    state and the types of RxState.v and Rx.v. *)
From Verif Require Import Prelude Address Backoff SpecCodec RxState Rx SpecRx SpecExec SpecConf SpecCv SpecLogon.

(** What is transmitted by a call *)
Definition sent (es : list event) : list (list Z) :=
  flat_map (fun e => match e with ETransmitBiDi d => [d] | _ => [] end) es.

(** Four of the eight bits are one *)
Definition legal (b : Z) : Prop := byte b /\ ones8 b = 4.
(** Between [lo] and [hi] legal bytes *)
Definition lawful (lo hi : nat) (d : list Z) : Prop := (lo <= length d <= hi)%nat /\ Forall legal d.
(** [cs] are [n] code words with the content [v] *)
Definition carries (n : nat) (v : Z) (cs : list Z) : Prop := coded (base64 n v) cs.

Section View.
  Context {I : Type}.
  Implicit Types s : st I.

  (** Where the last packet went to *)
  Definition last_address s : address := received (r_addrs (rxs s)).
  Definition last_bytes s : list Z := f_packet (r_fsm (rxs s)).

  (** Answers waiting *)
  Definition addresses_waiting s : list (list Z) := adr_deque (r_bidi (rxs s)).
  Definition cv_waiting s : list (list Z) := pom_deque (r_bidi (rxs s)).
  Definition data_waiting s : list (list Z) := dyn_deque (r_bidi (rxs s)).
  Definition search_waiting s : list (list Z) := tos_deque (r_bidi (rxs s)).
  Definition data_blocked s : bool := block_dyn (r_bidi (rxs s)).
  Definition quality s : Z := qos (r_cnt (rxs s)).

  Definition channel1_on s : bool := ch1_addr_enabled (r_conf (rxs s)).
  Definition channel2_on s : bool := ch2_data_enabled (r_conf (rxs s)).
  Definition consist_on s : bool := ch2_consist_enabled (r_conf (rxs s)).

  Definition to_locos s : Prop := In (atyp (last_address s)) [ATBroadcast; ATShort; ATLong].
  (** The address under which the decoder answers *)
  Definition answering_as s : address :=
    if is_assigned s then logon (r_addrs (rxs s)) else primary (r_addrs (rxs s)).

  (** What transmitting leaves alone *)
  Definition calm s := (r_fsm (rxs s), r_deque (rxs s), r_cnt (rxs s), r_addrs (rxs s), r_conf (rxs s), r_cv (rxs s), r_time (rxs s), pending s).
  Definition steady s s' : Prop := calm s' = calm s /\ addresses_waiting s' = addresses_waiting s /\ data_blocked s' = data_blocked s.

  (** Calls with the states in which they are made and the calls they make themselves *)
  Definition moment : Type := st I * op * list event.
  Fixpoint moments (E : Env I) (os : list op) s : list moment :=
    match os with
    | [] => []
    | o :: r => match step E o s with
                | Ok (_, s', es) => (s, o, es) :: moments E r s'
                | UB _ => []
                end
    end.
End View.

(** ** Channel 1 *)

(** The address told in channel 1: the one handed out by logon, else the own one unless in a
    consist, else that of the consist if it is a short one *)
Definition active (ad : addrs) : option address :=
  if aval (logon ad) =? 0 then
    if aval (consist ad) =? 0 then Some (primary ad)
    else if aval (consist ad) <? 128 then Some (consist ad)
    else None
  else Some (logon ad).

(** Contents of the two datagrams telling address [a] *)
Inductive tells (ad : addrs) (a : address) : Z -> Z -> Prop :=
| tells_consist : same_address a (consist ad) ->
    tells ad a 96 ((if arev (consist ad) then 128 else 0) + aval a mod 128)
| tells_short : ~ same_address a (consist ad) -> aval a < 128 -> tells ad a 0 (aval a)
| tells_long : ~ same_address a (consist ad) -> 128 <= aval a ->
    tells ad a (128 + aval a / 256) (aval a mod 256).

(** Datagrams with ID 1 and ID 2 *)
Definition address_pair (ad : addrs) (a : address) (hi lo : list Z) : Prop :=
  exists h l, tells ad a h l /\ carries 2 (256 * 1 + h) hi /\ carries 2 (256 * 2 + l) lo.

(** What a detector makes of the two contents *)
Inductive shown := Loco (n : Z) | Member (n : Z) (reversed : bool).
Definition reading_of (h l : Z) : shown :=
  if h =? 96 then Member (l mod 128) (128 <=? l)
  else if h <? 128 then Loco l else Loco (256 * (h - 128) + l).

Section Channel1.
  Context {I : Type}.

  (** What waits for channel 1 after a packet was executed in [s] *)
  Definition grows (s : st I) (w : list (list Z)) : Prop :=
    if channel1_on s && (length (addresses_waiting s) =? 0)%nat then
      match active (r_addrs (rxs s)) with
      | Some a => exists hi lo, address_pair (r_addrs (rxs s)) a hi lo /\ w = [hi; lo]
      | None => w = addresses_waiting s
      end
    else w = addresses_waiting s.

  (** Transmissions in channel 1 but for logon *)
  Definition spoken1 (ms : list (moment (I := I))) : list (list Z) :=
    flat_map (fun m => match m with
                       | (s, OBiDi1, es) => if atype_eqb (atyp (last_address s)) ATLogon then [] else sent es
                       | _ => []
                       end) ms.

  (** [told ms as]: some of the executed packets, in order, each with the address that was
      active then and its two datagrams *)
  Inductive told : list (moment (I := I)) -> list (list Z) -> Prop :=
  | told_nil : told [] []
  | told_skip : forall m ms ds, told ms ds -> told (m :: ms) ds
  | told_pair : forall s p q es ms a hi lo ds, ready s p q -> channel1_on s = true ->
      active (r_addrs (rxs s)) = Some a -> address_pair (r_addrs (rxs s)) a hi lo ->
      told ms ds -> told ((s, OExecute, es) :: ms) (hi :: lo :: ds).
End Channel1.

(** ** Channel 2 *)

Section Channel2.
  Context {I : Type}.
  Implicit Types s : st I.

  (** Last packet: for this decoder, or for its consist while that may answer *)
  Definition own_packet s : Prop :=
    In (atyp (last_address s)) [ATShort; ATLong] /\ same_address (last_address s) (answering_as s).
  Definition consist_packet s : Prop :=
    In (atyp (last_address s)) [ATShort; ATLong] /\ ~ same_address (last_address s) (answering_as s) /\
    same_address (last_address s) (consist (r_addrs (rxs s))) /\ consist_on s = true.
  (** Long form of CV access: the byte after one or two address bytes *)
  Definition for_cvs s : Prop :=
    let p := last_bytes s in
    0xE0 <= nth (if (128 <=? hd 0 p) && (hd 0 p <=? 252) then 2%nat else 1%nat) p 0 < 0xF0.
  (** The last packet asks for data *)
  Definition data_turn s : Prop := (own_packet s /\ ~ for_cvs s) \/ consist_packet s.

  (** The last duration completed a packet *)
  Definition cutout s : Prop := f_packet_end (r_fsm (rxs s)) = true.

  Definition waiting s := (cv_waiting s, data_waiting s, search_waiting s, logon_answers s).

  (** [answer2 s ds w]: [ds] are transmitted in channel 2, [w] waits afterwards *)
  Inductive answer2 s : list (list Z) -> list (list Z) * list (list Z) * list (list Z) * list (list Z) -> Prop :=
  | answer_search : atyp (last_address s) = ATBroadcast ->
      answer2 s (firstn 1 (search_waiting s)) (cv_waiting s, data_waiting s, tl (search_waiting s), logon_answers s)
  | answer_off : own_packet s -> for_cvs s -> channel2_on s = false -> answer2 s [] (waiting s)
  | answer_ack : own_packet s -> for_cvs s -> channel2_on s = true -> last_bytes s <> last_cv_packet s ->
      answer2 s [[0x0F]] (waiting s)
  | answer_cv : own_packet s -> for_cvs s -> channel2_on s = true -> last_bytes s = last_cv_packet s ->
      answer2 s (firstn 1 (cv_waiting s)) (tl (cv_waiting s), data_waiting s, search_waiting s, logon_answers s)
  | answer_data : data_turn s ->
      answer2 s (match data_waiting s with [] => [] | _ => [concat (firstn 2 (data_waiting s))] end)
                (cv_waiting s, skipn 2 (data_waiting s), search_waiting s, logon_answers s)
  | answer_logon : atyp (last_address s) = ATLogon ->
      answer2 s (map (skipn 2) (firstn 1 (logon_answers s)))
                (cv_waiting s, data_waiting s, search_waiting s, tl (logon_answers s))
  | answer_none : atyp (last_address s) <> ATBroadcast -> atyp (last_address s) <> ATLogon ->
      ~ own_packet s -> ~ consist_packet s -> answer2 s [] (waiting s).
End Channel2.

(** ** The last packet *)

(** A frame ended by a call that is no valid packet *)
Definition rejected (o : op) (l : listener) : bool :=
  match o with
  | OReceive t =>
      match half_bit t with
      | None => false
      | Some b =>
          let hs := l_heard l ++ [b] in
          if looked_at hs && (length (l_queue l) =? 31)%nat then false
          else match reading hs with Packet bs => negb (valid_packet bs) | _ => false end
      end
  | _ => false
  end.

(** The last packet heard, none if it was damaged *)
Fixpoint last_heard (os : list op) (l : listener) (p : option (list Z)) : option (list Z) :=
  match os with
  | [] => p
  | o :: r =>
      last_heard r (listen o l)
        (match completed o l with
         | Some q => Some q
         | None => if rejected o l then None else p
         end)
  end.

Section Addressed.
  Context {I : Type}.
  Implicit Types s : st I.
  (** The decoder may answer packet [p] in channel 2 *)
  Definition may_answer s (p : list Z) : Prop :=
    atyp (address_of p) = ATBroadcast \/ atyp (address_of p) = ATLogon \/
    (In (atyp (address_of p)) [ATShort; ATLong] /\
     (same_address (address_of p) (answering_as s) \/
      (consist_on s = true /\ same_address (address_of p) (consist (r_addrs (rxs s)))))).
End Addressed.

(** ** Quality of service *)

(** The call ends a start bit *)
Definition begun (o : op) (l : listener) : bool :=
  match o with
  | OReceive t =>
      match half_bit t with
      | None => false
      | Some b =>
          let hs := l_heard l ++ [b] in
          negb (looked_at hs && (length (l_queue l) =? 31)%nat) &&
          (20 <=? ones hs)%nat && (length (after_ones hs) =? 2)%nat
      end
  | _ => false
  end.

(** Frames and packets since the last evaluation, and the percentage of lost ones *)
Record tally := Tally { frames : Z; packets : Z; percent : Z }.
Definition tally0 : tally := Tally 0 0 0.
Definition count (o : op) (l : listener) (t : tally) : tally :=
  match o with
  | OReceive _ =>
      Tally (frames t + if begun o l then 1 else 0)
            (packets t + match completed o l with Some _ => 1 | None => 0 end) (percent t)
  | OExecute =>
      match l_fresh l, l_queue l with
      | false, _ :: _ =>
          if 100 <=? frames t then Tally 0 0 ((100 - 100 * packets t / frames t) mod 256) else t
      | _, _ => t
      end
  | _ => t
  end.
Fixpoint counted (os : list op) (l : listener) (t : tally) : tally :=
  match os with
  | [] => t
  | o :: r => counted r (listen o l) (count o l t)
  end.

(** Between start bit and end of a packet *)
Definition in_frame (l : listener) : bool := (2 <=? length (after_ones (l_heard l)))%nat.
(** No execution in the middle of a frame *)
Fixpoint undisturbed (os : list op) (l : listener) : Prop :=
  match os with
  | [] => True
  | o :: r => (o = OExecute -> in_frame l = false) /\ undisturbed r (listen o l)
  end.

Section Tallied.
  Context {I : Type}.
  Definition tally_of (s : st I) : tally :=
    Tally (preamble_count (r_cnt (rxs s))) (packet_count (r_cnt (rxs s))) (quality s).
End Tallied.

(** ** Data *)

(** Value and index of a data point (RCN-217, subindices 0, 1, 26, 27, 46) *)
Definition point_of (a : dyn_arg) : Z * Z :=
  match a with
  | DynGeneric d x => (d, x)
  | DynKmh d => if d <? 256 then (d, 0) else (Z.min (d - 256) 255, 1)
  | DynTemperature d => (d + 50, 26)
  | DynDirectionStatus d => (d, 27)
  | DynTrackVoltage d => (Z.max 0 (d - 5000) / 100, 46)
  end.
(** Values there is a code for *)
Definition in_range (a : dyn_arg) : Prop :=
  match a with
  | DynGeneric d x => byte d /\ 0 <= x < 64
  | DynKmh d => 0 <= d
  | DynTemperature d => -50 <= d <= 205
  | DynDirectionStatus d => byte d
  | DynTrackVoltage d => 0 <= d < 30600
  end.
(** What a detector makes of it *)
Inductive measured := Speed (kmh : Z) | Celsius (d : Z) | Status (b : Z) | Millivolts (from : Z) | Lost_packets (percent : Z) | Other.
Definition measure (d x : Z) : measured :=
  match x with
  | 0 => Speed d
  | 1 => Speed (256 + d)
  | 7 => Lost_packets d
  | 26 => Celsius (d - 50)
  | 27 => Status d
  | 46 => Millivolts (5000 + 100 * d)
  | _ => Other
  end.
(** ID 7 *)
Definition says_point (p : Z * Z) (cs : list Z) : Prop := carries 3 (16384 * 7 + 64 * fst p + snd p) cs.

Section Data.
  Context {I : Type}.
  Implicit Types s : st I.

  (** Data points taken when [ds] are offered: the quality of service leads *)
  Definition accepted s (ds : list dyn_arg) : list (Z * Z) :=
    match length (data_waiting s) with
    | O => if channel2_on s then firstn 7 ((quality s, 7) :: map point_of ds) else []
    | n => if channel2_on s && negb (data_blocked s) then firstn (7 - n) (map point_of ds) else []
    end.
  (** Found full: blocked. Found empty: no longer. *)
  Definition blocked_after s : bool :=
    match length (data_waiting s) with
    | O => false
    | n => if (n =? 7)%nat then true else data_blocked s
    end.

  (** Data transmitted *)
  Definition spoken_data (ms : list (moment (I := I))) (ds : list (list Z)) : Prop :=
    exists parts, ds = concat parts /\
    Forall2 (fun m part => match m with
                           | (s, OBiDi2, es) => (data_turn s /\ part = sent es) \/ (~ data_turn s /\ part = [])
                           | _ => part = []
                           end) ms parts.
  (** Data taken in the course of calls *)
  Inductive taken : list (moment (I := I)) -> list (list Z) -> Prop :=
  | taken_nil : taken [] []
  | taken_skip : forall s o es ms xs, (forall ds, o <> ODatagram ds) -> taken ms xs -> taken ((s, o, es) :: ms) xs
  | taken_more : forall s ds es ms xs new, Forall2 says_point (accepted s ds) new -> taken ms xs ->
      taken ((s, ODatagram ds, es) :: ms) (new ++ xs).
End Data.

(** Only values there is a code for *)
Definition codable (os : list op) : Prop := forall ds, In (ODatagram ds) os -> Forall in_range ds.

(** ** Pauses *)

(** Results of consecutive attempts, [true] if suppressed *)
Fixpoint attempts (b : backoff) (rs : list Z) : list bool :=
  match rs with
  | [] => []
  | r :: rest => let '(x, b') := backoff_test b r in x :: attempts b' rest
  end.
Inductive possible : backoff -> Prop :=
| possible_0 : possible backoff0
| possible_test : forall b r, possible b -> possible (snd (backoff_test b r))
| possible_now : forall b, possible b -> possible (backoff_now b).

(** ** Search *)

(** Binary state 2 switched off, short or long form *)
Definition asks_search (p : list Z) : Prop :=
  exists t, body_of p = 0xDD :: 2 :: t \/ body_of p = 0xC0 :: 2 :: 0 :: t.

(** [clock E time]: the clock of the environment never runs backwards, where [time i] is
    not later than anything the clock shows from [i] on *)
Definition clock {I} (E : Env I) (time : I -> Z) : Prop :=
  (forall i, time i <= fst (e_now E i) <= time (snd (e_now E i))) /\
  (forall i cv, time i <= time (snd (e_readCv E i cv))) /\
  (forall i cv b, time i <= time (snd (e_readCvByte E i cv b))) /\
  (forall i cv b pos, time i <= time (snd (e_readCvBit E i cv b pos))) /\
  (forall i cv b, time i <= time (snd (e_writeCv E i cv b))) /\
  (forall i cv b pos, time i <= time (snd (e_writeCvBit E i cv b pos))) /\
  (forall i e, time i <= time (snd (e_async E i e))) /\
  (forall i e, time i <= time (e_hook E i e)) /\
  (forall i, time i <= time (snd (e_rand E i))).

Section Search.
  Context {I : Type}.
  Implicit Types s : st I.
  (** When the last packet was executed and when the first one after a pause of 2 s *)
  Definition last_time s : Z := last_packet_tp (r_time (rxs s)).
  Definition wake_time s : Z := tos_tp (r_time (rxs s)).
  (** Attempts still to be suppressed *)
  Definition pause s : Z := bo_count (tos_backoff (r_time (rxs s))).
  Definition second : Z := 1000000000.

  (** Own address and seconds since waking up, ID 14 *)
  Definition search_answer s (sec : Z) (d : list Z) : Prop :=
    exists hi lo tm, address_pair (r_addrs (rxs s)) (primary (r_addrs (rxs s))) hi lo /\
    carries 2 (256 * 14 + sec) tm /\ d = hi ++ lo ++ tm.

  (** [searched s t s']: effect of a search packet executed at time [t]. After a pause of 2 s
      the search starts again. *)
  Definition woken s (t : Z) : bool := 2 * second <=? t - last_time s.
  Definition searched s (t : Z) s' : Prop :=
    let p := if woken s t then 0 else pause s in
    let sec := (t - wake_time s') / second in
    last_time s' = t /\ wake_time s' = (if woken s t then t else wake_time s) /\
    (p = 0 -> 0 <= pause s' <= 63) /\ (p <> 0 -> pause s' = p - 1) /\
    (p = 0 /\ search_waiting s = [] /\ sec < 30 -> exists d, search_answer s sec d /\ search_waiting s' = [d]) /\
    (~ (p = 0 /\ search_waiting s = [] /\ sec < 30) -> search_waiting s' = search_waiting s).
End Search.
