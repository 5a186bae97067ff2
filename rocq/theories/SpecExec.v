(** What a decoder has to do with a packet (RCN-211, RCN-212). Uses only the fields of
    the decoder state and the calls into the application from RxState.v and Rx.v. *)
From Verif Require Import Prelude Address SpecCodec RxState Rx SpecRx.

Section View.
  Context {I : Type}.
  Implicit Types s : st I.

  (** [execute] will take packet [p], the packets [q] wait behind it *)
  Definition ready s (p : list Z) (q : list (list Z)) : Prop :=
    f_packet_end (r_fsm (rxs s)) = false /\ r_deque (rxs s) = p :: q.

  Definition in_service s : bool := service_mode (r_cv (rxs s)).

  (** Everything a packet that is not for the decoder must leave alone. Left out are the
      bookkeeping of [execute] itself (address datagrams, time of the last packet,
      quality counters, the flag that logon data is to be stored and what was stored)
      and the receive queue. *)
  Definition rest_state s :=
    ((r_fsm (rxs s), r_addrs (rxs s), r_conf (rxs s), r_cv (rxs s), pending s),
     (dyn_deque (r_bidi (rxs s)), tos_deque (r_bidi (rxs s)), pom_deque (r_bidi (rxs s)),
      block_dyn (r_bidi (rxs s)), ch1 (r_bidi (rxs s)), ch2 (r_bidi (rxs s))),
     (logon_selected (r_logon (rxs s)), logon_assigned (r_logon (rxs s)), cid_back (r_logon (rxs s)),
      sid_back (r_logon (rxs s)), logon_backoff (r_logon (rxs s)), logon_deque (r_logon (rxs s)))).

  (** Calls with which logon data are stored *)
  Definition is_store (e : event) : Prop :=
    match e with
    | EWriteCv cv _ _ => In cv [16; 17; 18; 19; 65296; 65297; 65298; 65299; 65300]
    | EWriteCvBit cv b pos _ => cv = 28 /\ b = true /\ pos = 5
    | _ => False
    end.
  Definition storing s (es : list event) : Prop :=
    Forall is_store es /\ (logon_store (r_logon (rxs s)) = false -> es = []).

  (** [execute] returns [b], takes the packet off the queue and, storing logon data
      aside, makes exactly [calls] and changes nothing *)
  Definition reacts (E : Env I) s (q : list (list Z)) (b : bool) (calls : list event) : Prop :=
    exists s' e1, execute E s = Ok (b, s', e1 ++ calls) /\ storing s e1 /\
      rest_state s' = rest_state s /\ r_deque (rxs s') = q.
End View.

(** ** Addresses *)

(** Classes of packets for locomotive decoders *)
Definition for_locos (p : list Z) : Prop :=
  In (atyp (address_of p)) [ATBroadcast; ATShort; ATLong].
Definition loco_number (a : address) (n : Z) : Prop :=
  (atyp a = ATShort \/ atyp a = ATLong) /\ aval a = n.

(** [acts_as ad p n]: a decoder with addresses [ad] obeys packet [p] as locomotive [n] *)
Inductive acts_as (ad : addrs) (p : list Z) : Z -> Prop :=
| to_all : aval (address_of p) = 0 -> acts_as ad p 0
| to_own : forall n, n <> 0 -> aval (address_of p) = n -> aval (logon ad) = 0 ->
    loco_number (primary ad) n \/ loco_number (consist ad) n -> acts_as ad p n
| to_assigned : forall n, n <> 0 -> aval (address_of p) = n -> loco_number (logon ad) n ->
    acts_as ad p (aval (primary ad)).

(** Calls that name a locomotive name [n] *)
Definition reported_as (n : Z) (e : event) : Prop :=
  match e with
  | EDirection a _ | ESpeed a _ | EFunction a _ _ | EEastWest a _ => a = n
  | _ => True
  end.

(** Bytes after the address, the checksum included *)
Definition body_of (p : list Z) : list Z :=
  match atyp (address_of p) with ATLong => skipn 2 p | _ => skipn 1 p end.

(** ** Driving *)

(** Speed steps on a scale to 255 *)
Definition speed255 (steps k : Z) : Z :=
  if k =? 0 then 0 else if steps =? 126 then 255 * k / 126 else 2 + 253 * (k - 1) / (steps - 1).

(** Direction as the locomotive sees it *)
Definition turned (ad : addrs) (n : Z) (forward : bool) : bool :=
  xorb forward (if n =? aval (primary ad) then arev (primary ad) else arev (consist ad)).

Definition drive (ad : addrs) (n : Z) (forward : bool) (steps k : Z) : list event :=
  [EDirection n (turned ad n forward); ESpeed n (speed255 steps k)].

(** Instruction 0x3F, RCN-212: bit 7 direction, 0 stop, 1 emergency stop, 2.. steps *)
Definition speed126_calls (ad : addrs) (n b : Z) : list event :=
  let code := b mod 128 in
  if code =? 1 then [ESpeed n (-1)]
  else drive ad n (128 <=? b) 126 (if code =? 0 then 0 else code - 1).

(** Instruction 01DGGGGG, RCN-212: with 14 steps bit 4 is F0, with 28 steps it is the
    least significant bit of the step *)
Definition speed28_calls (ad : addrs) (fourteen : bool) (n b : Z) : list event :=
  let code := b mod 16 in
  let g := b / 16 mod 2 in
  if code =? 1 then [ESpeed n (-1)]
  else if fourteen
  then EFunction n 1 g :: drive ad n (96 <=? b) 14 (if code =? 0 then 0 else code - 1)
  else drive ad n (96 <=? b) 28 (if code =? 0 then 0 else 2 * code - 3 + g).

(** ** Functions *)

(** F[first] .. F[first + count - 1] set to [bits] *)
Definition functions (n first count bits : Z) : event :=
  EFunction n ((2 ^ count - 1) * 2 ^ first) (bits * 2 ^ first).

(** Instruction 10xxxxxx: F0-F4 (F0 is bit 4), F9-F12, F5-F8. With 14 steps F0 belongs
    to the speed command. *)
Definition function_group_call (fourteen : bool) (n b : Z) : event :=
  if b <? 0xA0 then
    let bits := 2 * (b mod 16) + b / 16 mod 2 in
    if fourteen then EFunction n 0x1E bits else functions n 0 5 bits
  else if b <? 0xB0 then functions n 9 4 (b mod 16)
  else functions n 5 4 (b mod 16).

(** Function bytes of a combined packet; what the decoder reports is [as_built] *)
Fixpoint combined (as_built : bool) (n first : Z) (fs : list Z) : list event :=
  match fs with
  | [] => []
  | f :: r =>
      (if as_built && (first =? 24) then EFunction n 0xFF (f * 2 ^ 24) else functions n first 8 f)
      :: combined as_built n (first + 8) r
  end.
