(** CV access by packets (RCN-214, RCN-216) *)
From Verif Require Import Prelude Address Datagram SpecCodec RxState Rx SpecRx SpecExec SpecConf.

(** ** What a packet asks for *)

(** An access to a CV (numbered from 0), as the application sees it: compare with or
    write a byte or a bit *)
Inductive access :=
| Check (a v : Z) | Store (a v : Z) | CheckBit (a : Z) (b : bool) (k : Z) | StoreBit (a : Z) (b : bool) (k : Z).

(** The access a call into the application is, synchronous or not *)
Definition access_of (e : event) : list access :=
  match e with
  | EReadCvByte a v _ | EReadCvByteAsync a v => [Check a v]
  | EReadCvBit a b k _ | EReadCvBitAsync a b k => [CheckBit a b k]
  | EWriteCv a v _ | EWriteCvAsync a v => [Store a v]
  | EWriteCvBit a b k _ | EWriteCvBitAsync a b k => [StoreBit a b k]
  | _ => []
  end.
Definition accesses (es : list event) : list access := flat_map access_of es.

Definition is_writing (x : access) : bool :=
  match x with Store _ _ | StoreBit _ _ _ => true | _ => false end.
Definition target (x : access) : Z :=
  match x with Check a _ | Store a _ | CheckBit a _ _ | StoreBit a _ _ => a end.

(** Long form, 1110KKAA AAAAAAAA DDDDDDDD: the access asked for *)
Definition request (b0 b1 b2 : Z) : list access :=
  let a := 256 * (b0 mod 4) + b1 in
  let bit := bit_of b2 3 in
  match b0 / 4 mod 4 with
  | 1 => [Check a b2]
  | 3 => [Store a b2]
  | 2 => [if bit_of b2 4 then StoreBit a bit (b2 mod 8) else CheckBit a bit (b2 mod 8)]
  | _ => []
  end.

(** ... and the access made at the [k]th packet in a row: a write is made at the second;
    further repetitions of a byte write only compare *)
Definition due (k : nat) (x : access) : list access :=
  match x, k with
  | Check _ _, _ | CheckBit _ _ _, _ => [x]
  | _, 2%nat => [x]
  | Store a v, S (S (S _)) => [Check a v]
  | _, _ => []
  end.

(** A locked decoder lets only CV15 be written *)
Definition permitted (locked : bool) (x : access) : bool :=
  negb locked || (is_writing x && (target x =? 14)).

(** Short form, 1111KKKK DDDDDDDD [DDDDDDDD]: CV23 or CV24 at once; CV17, CV18 and bit 5 of
    CV29 or CV31 and CV32 at the second packet in a row *)
Definition short_request (k : nat) (b0 b1 b2 : Z) : list access :=
  match b0 mod 16 with
  | 2 => [Store (23 - 1) b1]
  | 3 => [Store (24 - 1) b1]
  | 4 => if (k =? 2)%nat then [Store (17 - 1) (192 + b1 mod 64); Store (18 - 1) b2; StoreBit (29 - 1) true 5] else []
  | 5 => if (k =? 2)%nat then [Store (31 - 1) b1; Store (32 - 1) b2] else []
  | _ => []
  end.

(** Register mode, 0111CRRR DDDDDDDD: registers 0 to 3 are the CVs of a page (counted from
    1), 4 is CV29, 6 and 7 are CV7 and CV8. Register 5 is the page register. *)
Definition register_cv (page reg : Z) : Z :=
  if reg <? 4 then 4 * (page - 1) + reg else if reg =? 4 then 29 - 1 else reg.
Definition register_request (page b0 b1 : Z) : list access :=
  let reg := b0 mod 8 in
  if reg =? 5 then []
  else if bit_of b0 3 then [Store (register_cv page reg) b1] else [Check (register_cv page reg) b1].

(** ** Acknowledgement *)

(** The application's answer equals what the packet says *)
Definition confirmed (e : event) : bool :=
  match e with
  | EReadCvByte _ v r | EWriteCv _ v r => v =? r
  | EReadCvBit _ v _ r | EWriteCvBit _ v _ r => Bool.eqb v r
  | _ => false
  end.
Definition acks_of (es : list event) : nat :=
  length (filter (fun e => match e with EServiceAck => true | _ => false end) es).
Definition confirmations (es : list event) : nat := length (filter confirmed es).

Definition mode_calls (es : list event) : list bool :=
  flat_map (fun e => match e with EServiceModeHook b => [b] | _ => [] end) es.

(** ** Decoder state *)

Section View.
  Context {I : Type}.
  Implicit Types s : st I.

  (** Some sequence of calls leads from a new decoder to [s] *)
  Definition reached (E : Env I) s : Prop := exists i os es, run E os (st0 i) = Ok (tt, s, es).

  Definition locked s : bool := cvs_locked (r_conf (rxs s)).
  Definition last_cv_packet s : list Z := last_own_cv_packet (r_cv (rxs s)).
  Definition cv_packet_count s : nat := own_equal_cv_packets_count (r_cv (rxs s)).
  Definition answer_queue s : list (list Z) := pom_deque (r_bidi (rxs s)).
  Definition railcom_on s : bool := ch2_data_enabled (r_conf (rxs s)).
  Definition page s : Z := index_reg (r_cv (rxs s)).

  (** [p] is the [k]th packet of its kind in a row *)
  Definition nth_in_row s (p : list Z) (k : nat) : Prop :=
    (last_cv_packet s = p /\ k = S (cv_packet_count s)) \/ (last_cv_packet s <> p /\ k = 1%nat).
  Definition counted s (p : list Z) (k : nat) : Prop :=
    last_cv_packet s = p /\ cv_packet_count s = k.

  (** Locomotive [n] may not access CVs when it is addressed as part of a consist *)
  Definition by_consist s (n : Z) : Prop := n <> 0 /\ n = aval (consist (r_addrs (rxs s))).

  (** Everything but configuration, CV packet counter, answers to CV access and the
      bookkeeping of [execute] *)
  Definition bystanders s :=
    ((r_fsm (rxs s), logon (r_addrs (rxs s)), received (r_addrs (rxs s)), pending s),
     (index_reg (r_cv (rxs s)), service_mode (r_cv (rxs s)), man_flag (r_cv (rxs s)), enabled_flag (r_cv (rxs s))),
     (dyn_deque (r_bidi (rxs s)), tos_deque (r_bidi (rxs s)), block_dyn (r_bidi (rxs s)), ch1 (r_bidi (rxs s)), ch2 (r_bidi (rxs s))),
     (logon_selected (r_logon (rxs s)), logon_assigned (r_logon (rxs s)), cid_back (r_logon (rxs s)),
      sid_back (r_logon (rxs s)), logon_backoff (r_logon (rxs s)), logon_deque (r_logon (rxs s)))).
  Definition configuration s :=
    (primary (r_addrs (rxs s)), consist (r_addrs (rxs s)), r_conf (rxs s)).

  (** The only queued answer is a 12 bit datagram: two digits, ID 0 in the upper four bits,
      value [v] in the lower eight *)
  Definition answers s (v : Z) : Prop := exists d, answer_queue s = [d] /\ coded (base64 2 v) d.

  (** [p] makes an access to the CVs of this decoder, or is one that is not made yet *)
  Definition cv_packet s (p : list Z) : Prop :=
    if in_service s then 0x70 <= hd 0 p < 0x80 /\ length p = 4%nat
    else for_locos p /\ exists n, acts_as (r_addrs (rxs s)) p n /\ ~ by_consist s n /\ 0xE0 <= hd 0 (body_of p).

  (** Operations mode, long form, obeyed by this decoder: bytes [b0], [b1], [b2] *)
  Definition long_form s (p : list Z) (b0 b1 b2 : Z) : Prop :=
    in_service s = false /\ Forall byte p /\ for_locos p /\ 0xE0 <= b0 < 0xF0 /\
    exists n t, acts_as (r_addrs (rxs s)) p n /\ ~ by_consist s n /\ body_of p = b0 :: b1 :: b2 :: t.
  Definition short_form s (p : list Z) (b0 b1 b2 : Z) : Prop :=
    in_service s = false /\ Forall byte p /\ for_locos p /\ 0xF0 <= b0 /\
    exists n t, acts_as (r_addrs (rxs s)) p n /\ ~ by_consist s n /\ body_of p = b0 :: b1 :: b2 :: t.

  (** ** Repetition *)

  (** Calls of the decoder's functions from [s] to [s'] among which packet [p], a write of
      [v] to CV [a] that the lock does not forbid, is executed [n] times and no other
      packet of this decoder that accesses CVs is. [l] are the writes made by those
      executions. *)
  Inductive in_a_row (E : Env I) (p : list Z) (a v : Z) : st I -> nat -> list access -> st I -> Prop :=
  | row_end : forall s, in_a_row E p a v s 0 [] s
  | row_again : forall s q b0 b1 b s1 es n l s',
      ready s p q -> long_form s p b0 b1 v -> request b0 b1 v = [Store a v] -> (locked s = true -> a = 15 - 1) ->
      logon_store (r_logon (rxs s)) = false ->
      execute E s = Ok (b, s1, es) -> in_a_row E p a v s1 n l s' ->
      in_a_row E p a v s (S n) (filter is_writing (accesses es) ++ l) s'
  | row_other : forall s o b s1 es n l s',
      (o = OExecute -> forall p q, ready s p q -> ~ cv_packet s p) ->
      step E o s = Ok (b, s1, es) -> in_a_row E p a v s1 n l s' -> in_a_row E p a v s n l s'.

  (** ** Mode *)

  Definition enters s (p : list Z) : Prop :=
    in_service s = false /\ for_locos p /\ acts_as (r_addrs (rxs s)) p 0 /\ hd 1 (body_of p) = 0.
  Definition leaves s (p : list Z) : Prop :=
    in_service s = true /\ hd 0 p <> 0 /\ ~ 0x70 <= hd 0 p < 0x80.
End View.
