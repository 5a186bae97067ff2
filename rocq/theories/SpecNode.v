(** The decoder as an interpreter of packets, automatic logon included (RCN-218). Besides
    the CVs it has the configuration that was last read from them, because not everything
    that writes CVs has them read again. *)
From Verif Require Import Prelude Address SpecCodec RxState Rx SpecRx SpecExec SpecConf SpecCv SpecLogon SpecLayout.

Record node := Node {
  n_view : view;            (* CVs, service mode, page, last CV packet and its number *)
  n_own : address;          (* the addresses in force *)
  n_consist : address;
  n_logon : address;        (* handed out; number 0: none *)
  n_conf : confs;           (* the configuration in force, the unique ID among it *)
  n_selected : bool;
  n_assigned : bool;
  n_store : bool;           (* to be stored before the next packet *)
  n_known : Z * Z;          (* command station and session that were stored *)
  n_new : Z * Z }.          (* the last ones that logged on *)

Definition on_view (f : view -> view) n :=
  Node (f (n_view n)) (n_own n) (n_consist n) (n_logon n) (n_conf n) (n_selected n) (n_assigned n) (n_store n) (n_known n) (n_new n).

(** Reading the configuration *)
Definition configure n :=
  let c := v_cvs (n_view n) in
  Node (n_view n) (own_address c) (consist_address c) (n_logon n) (switches c) (n_selected n) (n_assigned n) (n_store n)
    (256 * cv c 65297 + cv c 65298, cv c 65299) (n_new n).
(** ... which is done after writing one of these CVs *)
Definition config_cvs : list Z := map (fun a => a - 1) [1; 15; 16; 17; 18; 19; 20; 28; 29].
Definition configuring (x : access) : bool := is_writing x && existsb (Z.eqb (target x)) config_cvs.

(** ** Packets for the logon address *)

Definition intact (p : list Z) : bool := (length p <=? 7)%nat || (crc_serial (removelast p) =? 0).
Definition same_id (a b : list Z) : bool := if list_eq_dec Z.eq_dec a b then true else false.
Definition no_number (a : address) : address := Addr 0 (atyp a) (arev a).

Definition hear_select (id : list Z) n : node :=
  if logon_enabled (n_conf n) && negb (n_assigned n) && same_id id (did (n_conf n)) then
    Node (n_view n) (n_own n) (n_consist n) (n_logon n) (n_conf n) true (n_assigned n) (n_store n) (n_known n) (n_new n)
  else n.
(** Address [A] handed out; [over]: instead of the own address *)
Definition hear_assign (id : list Z) (A : address) (over : bool) n : node :=
  if logon_enabled (n_conf n) && same_id id (did (n_conf n)) then
    Node (n_view n) (if negb (aval A =? 0) && over then A else n_own n) (no_number (n_consist n)) A (n_conf n)
      (n_selected n) true true (n_known n) (n_new n)
  else n.
Definition hear_enable (cid sid : Z) n : node :=
  if logon_enabled (n_conf n) && negb (n_selected n) then
    if cid =? fst (n_known n) then
      if (0 <=? sid - snd (n_known n)) && (sid - snd (n_known n) <=? 4) then
        Node (n_view n) (n_own n) (n_consist n) (address_of [v_cvs (n_view n) 65299; v_cvs (n_view n) 65300])
          (n_conf n) true true true (n_known n) (cid, sid)
      else
        Node (n_view n) (n_own n) (n_consist n) (no_number (n_logon n)) (n_conf n) false false false (n_known n) (cid, sid)
    else Node (n_view n) (n_own n) (n_consist n) (n_logon n) (n_conf n) (n_selected n) (n_assigned n) (n_store n) (n_known n) (cid, sid)
  else n.

Definition hear (p : list Z) n : node :=
  let k := nth 1 p 0 in
  if negb (intact p) then n
  else if k <? 208 then n
  else if k <? 224 then hear_select (firstn 4 (skipn 3 p)) n
  else if k <? 240 then
    match understood (nth 7 p 0) (nth 8 p 0) (nth 9 p 0) with
    | Some A => hear_assign (firstn 4 (skipn 3 p)) A (nth 7 p 0 <? 192) n
    | None => n
    end
  else hear_enable (256 * nth 2 p 0 + nth 3 p 0) (nth 4 p 0) n.

(** Storing what was assigned, whether or not the CVs are locked *)
Definition same_number (a b : address) : bool :=
  (aval a =? aval b) &&
  match atyp a, atyp b with
  | ATShort, ATShort | ATShort, ATLong | ATLong, ATShort | ATLong, ATLong => true
  | x, y => atype_eqb x y
  end.
Definition to_be_stored n : list access :=
  (if same_number (n_own n) (n_logon n) then stores_own (aval (n_own n)) else []) ++
  stores_logon (fst (n_new n)) (snd (n_new n)) (aval (n_logon n)).
Definition store_all n : node * list seen :=
  if n_store n then
    (Node (with_cvs (fold_left (fun c x => after x c) (to_be_stored n) (v_cvs (n_view n))) (n_view n))
       (n_own n) (n_consist n) (n_logon n) (n_conf n) (n_selected n) (n_assigned n) false (n_new n) (n_new n),
     map Access (to_be_stored n))
  else (n, []).

(** ** Other packets *)

Section Attend.
  Variable ew : bool.

  Definition carry (x : access) n : node * list seen :=
    if permitted (cvs_locked (n_conf n)) x then
      let c := after x (v_cvs (n_view n)) in
      let n1 := on_view (with_cvs c) n in
      (if configuring x then configure n1 else n1,
       Access x :: if v_service (n_view n) && agrees x c then [Told EServiceAck] else [])
    else (n, []).
  Fixpoint carry_all (xs : list access) n : node * list seen :=
    match xs with
    | [] => (n, [])
    | x :: r => let '(n1, a) := carry x n in let '(n2, b) := carry_all r n1 in (n2, a ++ b)
    end.

  Definition in_force n : addrs := Mk_addrs (n_own n) (n_consist n) addr0 addr0.

  (** The number under which packet [p] is obeyed, if it is: after logon only the address
      handed out counts, and it stands for the own one *)
  Definition obeyed_as n (p : list Z) : option Z :=
    match atyp (address_of p) with
    | ATBroadcast | ATShort | ATLong =>
        let k := aval (address_of p) in
        if k =? 0 then Some 0
        else if aval (n_logon n) =? 0 then
          if has_number (n_own n) k || has_number (n_consist n) k then Some k else None
        else if has_number (n_logon n) k then Some (aval (n_own n))
        else None
    | _ => None
    end.

  Definition drives n (k b0 : Z) (t : list Z) : list event :=
    let ad := in_force n in
    let f0 := f0_exception (n_conf n) in
    let b1 := hd 0 t in
    if b0 =? 0x3F then speed126_calls ad k b1
    else if b0 =? 0x3C then combined true k 0 (firstn 4 (removelast (tl t))) ++ speed126_calls ad k b1
    else if b0 =? 0x3E then (if ew then [EEastWest k (Some (bit_of b1 6))] else [])
    else if b0 <? 0x40 then []
    else if b0 <? 0x80 then speed28_calls ad f0 k b0
    else if b0 <? 0xC0 then [function_group_call f0 k b0]
    else if b0 =? 0xDE then [functions k 13 8 b1]
    else if b0 =? 0xDF then [functions k 21 8 b1]
    else [].

  Definition operate (p : list Z) n : node * list seen :=
    match obeyed_as n p, body_of p with
    | Some k, b0 :: t =>
        if b0 <? 0x10 then
          if (k =? 0) && (b0 =? 0) then (on_view (with_service true) n, [Told (EServiceModeHook true)]) else (n, [])
        else if b0 <? 0x20 then
          carry (Store (19 - 1) (hd 0 t mod 128 + 128 * Z.b2z (Z.odd b0 || (128 <=? hd 0 t)))) n
        else if b0 <? 0xE0 then (n, map Told (drives n k b0 t))
        else if negb (k =? 0) && (k =? aval (n_consist n)) then (n, [])
        else
          let n := on_view (count p) n in
          carry_all
            (if b0 <? 0xF0 then flat_map (due (v_times (n_view n))) (request b0 (nth 0 t 0) (nth 1 t 0))
             else short_request (v_times (n_view n)) b0 (nth 0 t 0) (nth 1 t 0)) n
    | _, _ => (n, [])
    end.

  Definition serve (p : list Z) n : node * list seen :=
    let b0 := nth 0 p 0 in
    let b1 := nth 1 p 0 in
    if b0 =? 0 then (n, [])
    else if negb (b0 / 16 =? 7) then (on_view (with_service false) n, [Told (EServiceModeHook false)])
    else if (length p =? 3)%nat then
      if b0 mod 8 =? 5 then
        if bit_of b0 3 then (on_view (with_page b1) n, [])
        else (n, if v_page (n_view n) =? b1 then [Told EServiceAck] else [])
      else carry ((if bit_of b0 3 then Store else Check) (register_cv (v_page (n_view n)) (b0 mod 8) mod 2 ^ 32) b1) n
    else if (length p =? 4)%nat then
      let n := on_view (count p) n in
      carry_all (if (v_times (n_view n) =? 2)%nat then request b0 b1 (nth 2 p 0) else []) n
    else (n, []).

  Definition execution (p : list Z) n : node * list seen :=
    let '(n1, a) := store_all n in
    let '(n2, b) := if v_service (n_view n1) then serve p n1 else operate p n1 in
    (n2, a ++ b).

  (** ** What reaches a decoder, in order *)

  Inductive input :=
  | Configured            (* init was called *)
  | Heard (p : list Z)    (* a logon packet was received *)
  | Taken (p : list Z).   (* a packet was taken from the queue *)

  Definition attend (x : input) n : node * list seen :=
    match x with
    | Configured => (configure n, [])
    | Heard p => (hear p n, [])
    | Taken p => execution p n
    end.
  Fixpoint attend_all (xs : list input) n : node * list seen :=
    match xs with
    | [] => (n, [])
    | x :: r => let '(n1, a) := attend x n in let '(n2, b) := attend_all r n1 in (n2, a ++ b)
    end.
End Attend.

(** A new decoder with CVs [c], its configuration not yet read *)
Definition new_node (c : Z -> Z) : node :=
  Node (new_view c) addr0 addr0 addr0 (Mk_confs false false false false false false [0; 0; 0; 0]) false false false (0, 0) (0, 0).

(** The inputs among calls of the library *)
Fixpoint inputs (os : list op) (l : listener) : list input :=
  match os with
  | [] => []
  | o :: r =>
      match o with
      | OInit => [Configured]
      | OExecute => map Taken (if l_fresh l then [] else firstn 1 (l_queue l))
      | _ => match completed o l with
             | Some bs => if is_logon bs then [Heard bs] else []
             | None => []
             end
      end ++ inputs r (listen o l)
  end.

(** ** A decoder that has been handed out an address *)

Definition logged_on (A : address) n : Prop :=
  n_logon n = A /\ aval A <> 0 /\ n_selected n = true /\ n_assigned n = true.

(** Inputs that may concern it: configuring, packets for number [k] or for all *)
Definition concerns (k : Z) (x : input) : bool :=
  match x with
  | Configured => true
  | Heard _ => false
  | Taken p =>
      match atyp (address_of p) with
      | ATBroadcast | ATShort | ATLong => (aval (address_of p) =? 0) || (aval (address_of p) =? k)
      | _ => false
      end
  end.
(** Neither is an address handed out nor a decoder reset, which would lead to service mode *)
Definition ordinary (x : input) : Prop :=
  match x with
  | Configured => True
  | Heard p => ~ 224 <= nth 1 p 0 < 240
  | Taken p => hd 1 (body_of p) <> 0
  end.
(** Nothing is handed out to [id] *)
Definition not_for (id : list Z) (p : list Z) : Prop := ~ (224 <= nth 1 p 0 < 240 /\ firstn 4 (skipn 3 p) = id).

(** The same decoder but for logon and the consist that it ends; [p] and [p'] were the
    last packets with CV accesses in both or in neither *)
Definition same_but_logon (p p' : list Z) n n' : Prop :=
  v_cvs (n_view n) = v_cvs (n_view n') /\ v_service (n_view n) = v_service (n_view n') /\ v_page (n_view n) = v_page (n_view n') /\
  v_times (n_view n) = v_times (n_view n') /\ (v_last (n_view n) = p <-> v_last (n_view n') = p') /\
  n_own n = n_own n' /\ n_conf n = n_conf n' /\ n_store n = n_store n'.
(** Operands that an instruction starting with [b0] has at least *)
Definition operands (b0 : Z) : nat :=
  if b0 <? 0x10 then O
  else if b0 <? 0x20 then 1%nat
  else if b0 <? 0xE0 then if existsb (Z.eqb b0) [0x3C; 0x3E; 0x3F; 0xDE; 0xDF] then 1%nat else O
  else if b0 <? 0xF0 then 2%nat
  else match (b0 mod 16)%Z with 2%Z | 3%Z => 1%nat | 4%Z | 5%Z => 2%nat | _ => O end.
