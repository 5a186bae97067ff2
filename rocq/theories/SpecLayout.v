(** The whole decoder as an interpreter of packets (RCN-211, RCN-212, RCN-214, RCN-216):
    five values instead of the decoder's registers, the configuration taken from the CVs
    anew with every packet. Uses only the types of packets, addresses and calls. *)
From Verif Require Import Prelude Address SpecCodec RxState Rx SpecRx SpecExec SpecConf SpecCv.

(** ** What an application sees *)

(** Calls that tell something, and accesses to CVs. The reads of [init], the answers to
    RailCom and the answers of CV accesses are left out. *)
Inductive seen := Told (e : event) | Access (x : access).
Definition seen_of (e : event) : list seen :=
  match e with
  | EDirection _ _ | ESpeed _ _ | EFunction _ _ _ | EServiceModeHook _ | EServiceAck | EEastWest _ _ => [Told e]
  | _ => map Access (access_of e)
  end.
Definition seen_in (es : list event) : list seen := flat_map seen_of es.

(** ** CVs *)

Definition set_cv (c : Z -> Z) (a v : Z) : Z -> Z := fun x => if x =? a then v else c x.
Definition set_bit (v k : Z) (b : bool) : Z := v + 2 ^ k * (Z.b2z b - Z.b2z (bit_of v k)).
Definition after (x : access) (c : Z -> Z) : Z -> Z :=
  match x with
  | Store a v => set_cv c a v
  | StoreBit a b k => set_cv c a (set_bit (c a) k b)
  | _ => c
  end.
(** The CV is as the access says *)
Definition agrees (x : access) (c : Z -> Z) : bool :=
  match x with
  | Check a v | Store a v => v =? c a
  | CheckBit a b k | StoreBit a b k => Bool.eqb b (bit_of (c a) k)
  end.

(** A CV memory that keeps what is written, if [able] to *)
Definition keeps_cvs {I : Type} (able : access -> Prop) (E : Env I) (m : I -> Z -> Z) : Prop :=
  cv_memory E m /\
  (forall i a v, able (Store a v) -> byte v -> m (snd (e_writeCv E i a v)) a = v) /\
  (forall i a b k, able (StoreBit a b k) -> 0 <= k < 8 -> m (snd (e_writeCvBit E i a b k)) a = set_bit (m i a) k b).
(** ... for example to write CV1 .. CV1024 *)
Definition all_cvs (x : access) : Prop := 0 <= target x < 1024.

(** ** The interpreter *)

Record view := View {
  v_cvs : Z -> Z;
  v_service : bool;    (* service mode *)
  v_page : Z;          (* page register *)
  v_last : list Z;     (* last packet with a CV access *)
  v_times : nat }.     (* how many times in a row *)

Definition with_cvs c v := View c (v_service v) (v_page v) (v_last v) (v_times v).
Definition with_service b v := View (v_cvs v) b (v_page v) (v_last v) (v_times v).
Definition with_page n v := View (v_cvs v) (v_service v) n (v_last v) (v_times v).

Section Obey.
  (** The application wants to know east and west *)
  Variable ew : bool.

  Definition perform (x : access) (v : view) : view * list seen :=
    if permitted (cvs_locked (switches (v_cvs v))) x then
      let c := after x (v_cvs v) in
      (with_cvs c v, Access x :: if v_service v && agrees x c then [Told EServiceAck] else [])
    else (v, []).
  Fixpoint perform_all (xs : list access) (v : view) : view * list seen :=
    match xs with
    | [] => (v, [])
    | x :: r => let '(v1, a) := perform x v in let '(v2, b) := perform_all r v1 in (v2, a ++ b)
    end.

  (** The packet counts, as the first or as a repetition *)
  Definition count (p : list Z) (v : view) : view :=
    View (v_cvs v) (v_service v) (v_page v) p
      (if list_eq_dec Z.eq_dec (v_last v) p then S (v_times v) else 1).

  Definition addresses (c : Z -> Z) : addrs := Mk_addrs (own_address c) (consist_address c) addr0 addr0.

  Definition has_number (a : address) (n : Z) : bool :=
    match atyp a with ATShort | ATLong => aval a =? n | _ => false end.
  (** The number under which packet [p] is obeyed, if it is *)
  Definition recipient (c : Z -> Z) (p : list Z) : option Z :=
    match atyp (address_of p) with
    | ATBroadcast | ATShort | ATLong =>
        let n := aval (address_of p) in
        if (n =? 0) || has_number (own_address c) n || has_number (consist_address c) n then Some n else None
    | _ => None
    end.

  (** Instructions that drive: the first byte [b0], the others [t] with the checksum *)
  Definition driving (c : Z -> Z) (n b0 : Z) (t : list Z) : list event :=
    let ad := addresses c in
    let b1 := hd 0 t in
    if b0 =? 0x3F then speed126_calls ad n b1
    else if b0 =? 0x3C then combined true n 0 (firstn 4 (removelast (tl t))) ++ speed126_calls ad n b1
    else if b0 =? 0x3E then (if ew then [EEastWest n (Some (bit_of b1 6))] else [])
    else if b0 <? 0x40 then []
    else if b0 <? 0x80 then speed28_calls ad (f0_exception (switches c)) n b0
    else if b0 <? 0xC0 then [function_group_call (f0_exception (switches c)) n b0]
    else if b0 =? 0xDE then [functions n 13 8 b1]
    else if b0 =? 0xDF then [functions n 21 8 b1]
    else [].

  Definition operations (p : list Z) (v : view) : view * list seen :=
    match recipient (v_cvs v) p, body_of p with
    | Some n, b0 :: t =>
        if b0 <? 0x10 then
          if (n =? 0) && (b0 =? 0) then (with_service true v, [Told (EServiceModeHook true)]) else (v, [])
        else if b0 <? 0x20 then
          perform (Store (19 - 1) (hd 0 t mod 128 + 128 * Z.b2z (Z.odd b0 || (128 <=? hd 0 t)))) v
        else if b0 <? 0xE0 then (v, map Told (driving (v_cvs v) n b0 t))
        else if negb (n =? 0) && (n =? aval (consist_address (v_cvs v))) then (v, [])
        else
          let v := count p v in
          perform_all
            (if b0 <? 0xF0 then flat_map (due (v_times v)) (request b0 (nth 0 t 0) (nth 1 t 0))
             else short_request (v_times v) b0 (nth 0 t 0) (nth 1 t 0)) v
    | _, _ => (v, [])
    end.

  Definition service (p : list Z) (v : view) : view * list seen :=
    let b0 := nth 0 p 0 in
    let b1 := nth 1 p 0 in
    if b0 =? 0 then (v, [])
    else if negb (b0 / 16 =? 7) then (with_service false v, [Told (EServiceModeHook false)])
    else if (length p =? 3)%nat then
      if b0 mod 8 =? 5 then
        if bit_of b0 3 then (with_page b1 v, [])
        else (v, if v_page v =? b1 then [Told EServiceAck] else [])
      else perform ((if bit_of b0 3 then Store else Check) (register_cv (v_page v) (b0 mod 8) mod 2 ^ 32) b1) v
    else if (length p =? 4)%nat then
      let v := count p v in
      perform_all (if (v_times v =? 2)%nat then request b0 b1 (nth 2 p 0) else []) v
    else (v, []).

  Definition obey (p : list Z) (v : view) : view * list seen :=
    if v_service v then service p v else operations p v.
  Fixpoint obey_all (ps : list (list Z)) (v : view) : view * list seen :=
    match ps with
    | [] => (v, [])
    | p :: r => let '(v1, a) := obey p v in let '(v2, b) := obey_all r v1 in (v2, a ++ b)
    end.
End Obey.

(** A new decoder with CVs [c] *)
Definition new_view (c : Z -> Z) : view := View c false 1 [] 0.

(** Writing only what the application is able to *)
Definition allowed (able : access -> Prop) (x : seen) : Prop :=
  match x with Access x => is_writing x = true -> able x | Told _ => True end.

(** Logon packets completed during the calls [os] *)
Fixpoint logons (os : list op) (l : listener) : list (list Z) :=
  match os with
  | [] => []
  | o :: r =>
      match completed o l with
      | Some bs => if is_logon bs then [bs] else []
      | None => []
      end ++ logons r (listen o l)
  end.
