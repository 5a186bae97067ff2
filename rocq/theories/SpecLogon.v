(** Automatic logon (RCN-218). Uses only the fields of the decoder state and the types of
    RxState.v and Rx.v. *)
From Verif Require Import Prelude Address Backoff SpecCodec RxState Rx SpecRx SpecExec SpecConf SpecCv.

(** ** Packets to the logon address 254 *)

(** Packets of more than 7 bytes carry a CRC in front of the checksum *)
Definition undamaged (p : list Z) : Prop := (length p <= 7)%nat \/ crc_serial (removelast p) = 0.

Inductive message :=
| Enable (group cid sid : Z)      (* 1111xxgg, command station, session *)
| Select (id : list Z)            (* 1101xxxx, manufacturer, unique ID *)
| Assign (id : list Z) (a b : Z)  (* 1110xxxx, manufacturer, unique ID, address *)
| Nothing.                        (* all others *)

(** [says p m]: what packet [p] means. The manufacturer of whom is addressed does not
    appear in the meaning. *)
Inductive says : list Z -> message -> Prop :=
| says_enable : forall c cid sid rest, 0 <= c < 16 -> 0 <= cid < 65536 ->
    says (254 :: 240 + c :: cid / 256 :: cid mod 256 :: sid :: rest) (Enable (c mod 4) cid sid)
| says_select : forall c man id rest, 0 <= c < 16 -> length id = 4%nat ->
    says (254 :: 208 + c :: man :: id ++ rest) (Select id)
| says_assign : forall c man id a b x rest, 0 <= c < 16 -> length id = 4%nat ->
    says (254 :: 224 + c :: man :: id ++ a :: b :: x :: rest) (Assign id a b)
| says_nothing : forall k rest, k < 208 -> says (254 :: k :: rest) Nothing.

(** ** The address handed out: two flag bits, then 14 bits *)

(** RCN-218: up to 39 * 256 + 255 a long address, from 56 * 256 a short one *)
Definition handed_out (a b : Z) : option address :=
  let k := a mod 64 in
  if k <? 40 then Some (Addr (256 * k + b) ATLong false)
  else if k =? 56 then Some (Addr b ATShort false)
  else None.

(** What the decoder makes of it: the bytes are read like the start of a packet *)
Definition understood (a b x : Z) : option address :=
  let k := a mod 64 in
  if k <? 40 then Some (address_of [a; b])
  else if k =? 56 then Some (address_of [b; x])
  else None.

(** ** Decoder state *)

Section View.
  Context {I : Type}.
  Implicit Types s : st I.

  (** Duration [t] is the last one of packet [p] *)
  Definition hears (E : Env I) s (t : Z) (p : list Z) : Prop :=
    exists i os es, run E os (st0 i) = Ok (tt, s, es) /\
      completed (OReceive t) (listen_all os listener0) = Some p.

  Definition logon_on s : bool := logon_enabled (r_conf (rxs s)).
  Definition own_id s : list Z := did (r_conf (rxs s)).
  (** Command station and session that were stored *)
  Definition known_station s : Z := cid_front (r_logon (rxs s)).
  Definition known_session s : Z := sid_front (r_logon (rxs s)).

  (** All that logon can change *)
  Definition own_addresses s := (primary (r_addrs (rxs s)), consist (r_addrs (rxs s)), logon (r_addrs (rxs s))).
  Definition is_selected s : bool := logon_selected (r_logon (rxs s)).
  Definition is_assigned s : bool := logon_assigned (r_logon (rxs s)).
  Definition to_store s : bool := logon_store (r_logon (rxs s)).
  Definition new_station s := (cid_back (r_logon (rxs s)), sid_back (r_logon (rxs s))).
  Definition pause s : backoff := logon_backoff (r_logon (rxs s)).
  Definition logon_answers s : list (list Z) := logon_deque (r_logon (rxs s)).

  (** Everything else except the bit receiver *)
  Definition aside s :=
    (r_deque (rxs s), r_conf (rxs s), r_bidi (rxs s), r_cv (rxs s), r_time (rxs s), pending s,
     (preamble_count (r_cnt (rxs s)), qos (r_cnt (rxs s))), (known_station s, known_session s)).

  (** [p] was received, for the rest of the decoder that is all *)
  Definition took s (p : list Z) s' : Prop :=
    aside s' = aside s /\ f_packet_end (r_fsm (rxs s')) = true /\ f_packet (r_fsm (rxs s')) = p /\
    received (r_addrs (rxs s')) = address_of p /\
    packet_count (r_cnt (rxs s')) = packet_count (r_cnt (rxs s)) + 1.

  Definition unmoved s s' : Prop :=
    own_addresses s' = own_addresses s /\ is_selected s' = is_selected s /\ is_assigned s' = is_assigned s /\
    to_store s' = to_store s /\ new_station s' = new_station s /\ pause s' = pause s /\
    logon_answers s' = logon_answers s /\ app s' = app s.

  (** The same command station, at most four sessions later *)
  Definition recognized s (cid sid : Z) : Prop :=
    cid = known_station s /\ 0 <= sid - known_session s <= 4.

  (** The only answer waiting has the 48 bit content [v] *)
  Definition answers_with s (v : Z) : Prop :=
    exists cs, logon_answers s = [cs] /\ coded (base64 8 v) cs.

  (** After each logon packet channel 2 is sent before the next duration *)
  Definition served (os : list op) : Prop := forall os1 t os2 p, os = os1 ++ OReceive t :: os2 ->
    completed (OReceive t) (listen_all os1 listener0) = Some p -> is_logon p = true ->
    exists os3 os4, os2 = os3 ++ OBiDi2 :: os4 /\ existsb is_receive os3 = false.
End View.

(** Bytes as one number, the first one most significant *)
Definition big_endian (bs : list Z) : Z := fold_left (fun v b => 256 * v + b) bs 0.

(** Answers: to ENABLE ID15, manufacturer and unique ID; to SELECT the locomotive address
    and a CRC; to ASSIGN 13 and a CRC *)
Definition enable_answer (id : list Z) : Z := 15 * 2 ^ 44 + 145 * 2 ^ 32 + big_endian id.
Definition with_crc (bs : list Z) : Z := big_endian (bs ++ [crc_serial bs]).
Definition select_answer (n : Z) : Z := with_crc [128 + n / 256; n mod 256; 0; 0; 0].
Definition assign_answer : Z := with_crc [16 * 13; 0; 0; 0; 0].

(** ** Storing *)

(** Short and long addresses count as the same if the number is *)
Definition same_address (a b : address) : Prop :=
  aval a = aval b /\ (atyp a = atyp b \/ (In (atyp a) [ATShort; ATLong] /\ In (atyp b) [ATShort; ATLong])).

(** CV17 and CV18 with CV29 bit 5, CV19 and CV20, command station, session, logon address *)
Definition stores_own (n : Z) : list access := [Store 16 (192 + n / 256); Store 17 (n mod 256); StoreBit 28 true 5].
Definition stores_logon (cid sid n : Z) : list access :=
  [Store 18 0; Store 19 0; Store 65296 (cid / 256); Store 65297 (cid mod 256); Store 65298 sid;
   Store 65299 (n / 256); Store 65300 (n mod 256)].
