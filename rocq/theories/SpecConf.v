(** Configuration of a decoder by its CVs (RCN-225). CVs are numbered from 1 here; the
    library and the application count from 0. *)
From Verif Require Import Prelude Address SpecCodec RxState Rx SpecRx.

(** Bit [k] of a CV *)
Definition bit_of (v k : Z) : bool := Z.odd (v / 2 ^ k).

Section Of_cvs.
  (** CV contents as the application addresses them *)
  Variable c : Z -> Z.
  Definition cv (n : Z) : Z := c (n - 1).

  (** CV29 bit 5: long address in CV17 and CV18, else short address in CV1.
      CV29 bit 0: direction reversed. *)
  Definition own_address : address :=
    let a := if bit_of (cv 29) 5 then address_of [cv 17; cv 18]
             else Addr (cv 1) (first_byte_class (cv 1)) false in
    Addr (aval a) (atyp a) (bit_of (cv 29) 0).

  (** CV19: address and direction in the consist, CV20: hundreds *)
  Definition consist_address : address :=
    Addr (100 * (cv 20 mod 128) + cv 19 mod 128) ATLong (bit_of (cv 19) 7).

  (** CV29 bit 1 clear: 14 speed steps. CV15/CV16: lock. CV29 bit 3: RailCom, its parts
      in CV28. CV20 bit 7: channel 2 for the consist address. CV250..253: unique ID. *)
  Definition switches : confs :=
    let railcom := bit_of (cv 29) 3 in
    Mk_confs (railcom && bit_of (cv 28) 0) (railcom && bit_of (cv 28) 1)
      (railcom && bit_of (cv 20) 7) (railcom && bit_of (cv 28) 7)
      (negb (cv 15 =? cv 16) && negb (cv 15 =? 0) && negb (cv 16 =? 0))
      (negb (bit_of (cv 29) 1))
      [cv 250; cv 251; cv 252; cv 253].

  (** An address in CV1 that starts a long address *)
  Definition broken_cv1 : Prop := bit_of (cv 29) 5 = false /\ 192 <= cv 1 <= 231.

  (** The reads of [init] in order, [hc]: the application wants to know CV28 bit 6 *)
  Definition config_calls (hc : bool) : list event :=
    let reads := map (fun n => EReadCv (n - 1) (cv n)) in
    reads [29] ++ (if bit_of (cv 29) 5 then reads [17; 18] else reads [1]) ++
    reads [19; 20; 15; 16; 28] ++
    (if hc then [EHighCurrent (bit_of (cv 28) 6)] else []) ++
    reads [250; 251; 252; 253; 65297; 65298; 65299].
End Of_cvs.

Section Configured.
  Context {I : Type}.
  Implicit Types s : st I.

  (** The CVs that take effect on driving, CV access and RailCom *)
  Definition active (c : Z -> Z) s : Prop :=
    primary (r_addrs (rxs s)) = own_address c /\
    consist (r_addrs (rxs s)) = consist_address c /\
    upd_did [] (r_conf (rxs s)) = upd_did [] (switches c).

  (** All that is read by [init] *)
  Definition configured (c : Z -> Z) s : Prop :=
    active c s /\ did (r_conf (rxs s)) = did (switches c) /\
    cid_front (r_logon (rxs s)) = 256 * cv c 65297 + cv c 65298 /\
    sid_front (r_logon (rxs s)) = cv c 65299.

  (** All the rest *)
  Definition unconfigured s :=
    ((r_fsm (rxs s), r_deque (rxs s), r_cnt (rxs s), r_bidi (rxs s), r_cv (rxs s), r_time (rxs s), pending s),
     (logon (r_addrs (rxs s)), received (r_addrs (rxs s))),
     upd_cid_front 0 (upd_sid_front 0 (r_logon (rxs s)))).

  (** A CV memory with synchronous access: [m i] are the CVs in application state [i].
      Writing may be refused or altered; the answer is what is in the CV afterwards. *)
  Record cv_memory (E : Env I) (m : I -> Z -> Z) : Prop := {
    mem_byte : forall i a, byte (m i a);
    mem_read : forall i a, u8 (fst (e_readCv E i a)) = m i a /\ m (snd (e_readCv E i a)) = m i;
    mem_readByte : forall i a b, u8 (fst (e_readCvByte E i a b)) = m i a /\ m (snd (e_readCvByte E i a b)) = m i;
    mem_readBit : forall i a b k, 0 <= k < 8 ->
      fst (e_readCvBit E i a b k) = bit_of (m i a) k /\ m (snd (e_readCvBit E i a b k)) = m i;
    mem_write : forall i a b, u8 (fst (e_writeCv E i a b)) = m (snd (e_writeCv E i a b)) a /\
      forall x, x <> a -> m (snd (e_writeCv E i a b)) x = m i x;
    mem_writeBit : forall i a b k, 0 <= k < 8 ->
      fst (e_writeCvBit E i a b k) = bit_of (m (snd (e_writeCvBit E i a b k)) a) k /\
      forall x, x <> a -> m (snd (e_writeCvBit E i a b k)) x = m i x;
    mem_hook : forall i e, m (e_hook E i e) = m i;
    mem_rand : forall i, m (snd (e_rand E i)) = m i;
    mem_now : forall i, m (snd (e_now E i)) = m i;
    mem_sync : e_async_readable E = false /\ e_async_writable E = false }.

  (** Writes to the CVs 1, 15 to 20, 28 and 29 *)
  Definition config_write (e : event) : Prop :=
    match e with
    | EWriteCv a _ _ | EWriteCvBit a _ _ _ => In (a + 1) [1; 15; 16; 17; 18; 19; 20; 28; 29]
    | _ => False
    end.
End Configured.

(** ** Direction *)

(** Instructions that set a direction, with that direction: 126 steps, 14/28 steps, speed
    with functions. An emergency stop sets none. *)
Inductive steers : list Z -> bool -> Prop :=
| steer126 : forall b t, b mod 128 <> 1 -> steers (0x3F :: b :: t) (128 <=? b)
| steer28 : forall b t, 0x40 <= b < 0x80 -> b mod 16 <> 1 -> steers (b :: t) (96 <=? b)
| steer_combined : forall b fs c, b mod 128 <> 1 -> steers (0x3C :: b :: fs ++ [c]) (128 <=? b).

(** Among [calls] exactly one direction is reported, for locomotive [n] *)
Definition reports_direction (n : Z) (d : bool) (calls : list event) : Prop :=
  filter (fun e => match e with EDirection _ _ => true | _ => false end) calls = [EDirection n d].
