(** Decoder (include/dcc/rx/crtp_base.hpp). *)
From Verif Require Import Prelude Address Instruction Checksum Datagram Speed Packets Backoff RxState.

(** DCC_RX_* constants, CMakeLists.txt:28-54 *)
Definition manufacturer_id : Z := 145.
Definition rx_min_preamble_bits : nat := 10.
Definition rx_bit1_min : Z := 52.
Definition rx_bit1_max : Z := 64.
Definition rx_bit0_min : Z := 90.
Definition rx_bit0_max_analog : Z := 10000.
Definition rx_deque_size : nat := 31.
Definition rx_bidi_deque_size : nat := 7.

(** enum Bit, bit.hpp:17; time2bit, rx/timing.hpp:32-36. [None] is Invalid. *)
Definition time2bit (time : Z) : option bool :=
  if (rx_bit1_min <=? time) && (time <=? rx_bit1_max) then Some true
  else if (rx_bit0_min <=? time) && (time <=? rx_bit0_max_analog) then Some false
  else None.

(** Calls of the library into the application object: the functions required by
    the concepts Decoder, Readable, Writable, AsyncReadable, AsyncWritable,
    HighCurrent and EastWest (rx/decoder.hpp, rx/readable.hpp, rx/writable.hpp,
    rx/async_readable.hpp, rx/async_writable.hpp, rx/high_current.hpp,
    rx/east_west.hpp). The last argument of read and write events is the value
    the application returned. *)
Inductive event :=
| EDirection (addr : Z) (dir : bool)
| ESpeed (addr speed : Z)
| EFunction (addr mask state : Z)
| EServiceModeHook (b : bool)
| EServiceAck
| ETransmitBiDi (bs : list Z)
| EReadCv (cv ret : Z)
| EReadCvByte (cv b ret : Z)
| EReadCvBit (cv : Z) (b : bool) (pos : Z) (ret : bool)
| EWriteCv (cv b ret : Z)
| EWriteCvBit (cv : Z) (b : bool) (pos : Z) (ret : bool)
| EReadCvByteAsync (cv b : Z)
| EReadCvBitAsync (cv : Z) (b : bool) (pos : Z)
| EWriteCvAsync (cv b : Z)
| EWriteCvBitAsync (cv : Z) (b : bool) (pos : Z)
| EHighCurrent (b : bool)
| EEastWest (addr : Z) (dir : option bool).

(** The application, rand() and the system clock as arbitrary functions on an
    arbitrary application state. The booleans tell which optional concepts the
    application satisfies. [e_async] answers an asynchronous request: [Some v] if
    the callback is invoked at once with value [v], [None] if later. *)
Record Env (I : Type) := Mk_env {
  e_readCv : I -> Z -> Z * I;
  e_readCvByte : I -> Z -> Z -> Z * I;
  e_readCvBit : I -> Z -> bool -> Z -> bool * I;
  e_writeCv : I -> Z -> Z -> Z * I;
  e_writeCvBit : I -> Z -> bool -> Z -> bool * I;
  e_async : I -> event -> option Z * I;
  e_hook : I -> event -> I;
  e_rand : I -> Z * I;
  e_now : I -> Z * I;
  e_async_readable : bool;
  e_async_writable : bool;
  e_high_current : bool;
  e_east_west : bool }.
Arguments e_readCv {I}. Arguments e_readCvByte {I}. Arguments e_readCvBit {I}.
Arguments e_writeCv {I}. Arguments e_writeCvBit {I}. Arguments e_async {I}.
Arguments e_hook {I}. Arguments e_rand {I}. Arguments e_now {I}.
Arguments e_async_readable {I}. Arguments e_async_writable {I}.
Arguments e_high_current {I}. Arguments e_east_west {I}.

(** A callback handed to an asynchronous application and not yet invoked: the
    lambdas of rx/crtp_base.hpp:731-734 / 778-781 (byte) and 745-748 / 792-795
    (bit) with their captured value *)
Inductive pend := PendByte (b : Z) | PendBit (b : bool).

(** Library state, application state, outstanding callbacks *)
Record st (I : Type) := Mk_st { rxs : rx; app : I; pending : list pend }.
Arguments Mk_st {I}. Arguments rxs {I}. Arguments app {I}. Arguments pending {I}.

(** dyn datagram arguments: Dyn, Kmh, Temperature, DirectionStatusByte and
    TrackVoltage, bidi/dyn.hpp:18-26 and its subclasses. Values are int16_t. *)
Inductive dyn_arg :=
| DynGeneric (d x : Z) | DynKmh (d : Z) | DynTemperature (d : Z)
| DynDirectionStatus (d : Z) | DynTrackVoltage (d : Z).

(** The conversion in dyn(Dyns&&), rx/crtp_base.hpp:1037-1052: value and subindex
    passed on to dyn(uint8_t, uint8_t) *)
Definition dyn_convert (a : dyn_arg) : Z * Z :=
  match a with
  | DynGeneric d x => (u8 d, x)
  | DynKmh d =>
      let tmp := if d <? 512 then (if d <? 256 then d else d - 256) else 255 in
      (u8 tmp, if d <? 256 then 0 else 1)
  | DynTemperature d => (u8 (lerp d (-50) 205 0 255), 26)
  | DynDirectionStatus d => (u8 d, 27)
  | DynTrackVoltage d =>
      let tmp := Z.max 0 (i16 (d - 5000)) in
      (u8 (Z.quot tmp 100), 46)
  end.

(** std::copy of [d] into a fixed buffer at [pos], rx/crtp_base.hpp:1080,1093,... *)
Definition overwrite (buf : list Z) (pos : nat) (d : list Z) : list Z :=
  firstn pos buf ++ d ++ skipn (pos + length d) buf.

(** adrHigh, rx/crtp_base.hpp:1125-1131 *)
Definition adrHigh (r : rx) (a : address) : res (list Z) :=
  rbind (make_datagram_id B12 1
           (if addr_eqb a (consist (r_addrs r)) then 0x60
            else if aval a <? 128 then 0
            else Z.lor 0x80 (Z.shiftr (Z.land (aval a) 0x3F00) 8)))
        encode_datagram.

(** adrLow, rx/crtp_base.hpp:1137-1143 *)
Definition adrLow (r : rx) (a : address) : res (list Z) :=
  rbind (make_datagram_id B12 2
           (if addr_eqb a (consist (r_addrs r))
            then Z.lor (Z.shiftl (Z.b2z (arev (consist (r_addrs r)))) 7)
                       (Z.land (aval (consist (r_addrs r))) 0x7F)
            else Z.land (aval a) 0xFF))
        encode_datagram.

(** std::span::subspan<Offset, 4>(), rx/crtp_base.hpp:385,392 *)
Definition subspan4 (bs : list Z) (off : nat) : res (list Z) :=
  if (off + 4 <=? length bs)%nat then Ok (firstn 4 (skipn off bs)) else UB OutOfBounds.

Fixpoint list_eqb (a b : list Z) : bool :=
  match a, b with
  | [], [] => true
  | x :: a', y :: b' => (x =? y) && list_eqb a' b'
  | _, _ => false
  end.

(** static_cast<AddressGroup>(b & 0b11), rx/crtp_base.hpp:415 *)
Definition group_of (b : Z) : address_group :=
  match Z.land b 3 with 0 => GAll | 1 => GLoco | 2 => GAcc | _ => GNow end.

(** CVs after whose write init() is called, rx/crtp_base.hpp:760-768 *)
Definition init_cvs : list Z := [0; 14; 15; 16; 17; 18; 19; 27; 28].

(** appDyn's do-while loop, rx/crtp_base.hpp:1091-1095: fills the buffer from
    [pos]; returns remaining deque, buffer and end position *)
Fixpoint dyn_loop (dq : list (list Z)) (buf : list Z) (pos : nat)
  : res (list (list Z) * list Z * nat) :=
  match dq with
  | [] => UB OutOfBounds
  | d :: rest =>
      let pos' := (pos + length d)%nat in
      if (pos' <=? length buf)%nat then
        let buf' := overwrite buf pos d in
        match rest with
        | [] => Ok (rest, buf', pos')
        | d2 :: _ =>
            if (length d2 <=? length buf - pos')%nat then dyn_loop rest buf' pos'
            else Ok (rest, buf', pos')
        end
      else UB OutOfBounds
  end.

Section Decoder.
  Context {I : Type} (E : Env I).

  (** A member function of the decoder: from a state to an outcome with result,
      new state and the calls made into the application, in order. *)
  Definition M (A : Type) : Type := st I -> res (A * st I * list event).

  Definition ret {A} (a : A) : M A := fun s => Ok (a, s, []).
  Definition bind {A B} (m : M A) (k : A -> M B) : M B := fun s =>
    match m s with
    | UB r => UB r
    | Ok (a, s1, e1) =>
        match k a s1 with
        | UB r => UB r
        | Ok (b, s2, e2) => Ok (b, s2, e1 ++ e2)
        end
    end.
  Definition fail {A} (r : ub) : M A := fun _ => UB r.
  Definition lift {A} (m : res A) : M A := fun s =>
    match m with Ok a => Ok (a, s, []) | UB r => UB r end.
  Definition get : M rx := fun s => Ok (rxs s, s, []).
  Definition modify (f : rx -> rx) : M unit := fun s =>
    Ok (tt, Mk_st (f (rxs s)) (app s) (pending s), []).

  Notation "x <- m ;; k" := (bind m (fun x => k))
    (at level 61, m at next level, right associativity).
  Notation "m ;;; k" := (bind m (fun _ => k)) (at level 61, right associativity).

  Definition when (b : bool) (m : M unit) : M unit := if b then m else ret tt.

  (** bytes[i] on a span or packet *)
  Definition at_ (bs : list Z) (i : nat) : M Z :=
    match nth_error bs i with Some b => ret b | None => fail OutOfBounds end.

  (** Calls into the application. Returned bytes are uint8_t by the concepts
      (rx/readable.hpp, rx/writable.hpp), made explicit by [u8]. *)
  Definition readCv (cv : Z) : M Z := fun s =>
    let '(v, i) := e_readCv E (app s) cv in
    Ok (u8 v, Mk_st (rxs s) i (pending s), [EReadCv cv (u8 v)]).
  Definition readCvByte (cv b : Z) : M Z := fun s =>
    let '(v, i) := e_readCvByte E (app s) cv b in
    Ok (u8 v, Mk_st (rxs s) i (pending s), [EReadCvByte cv b (u8 v)]).
  Definition readCvBit (cv : Z) (b : bool) (pos : Z) : M bool := fun s =>
    let '(v, i) := e_readCvBit E (app s) cv b pos in
    Ok (v, Mk_st (rxs s) i (pending s), [EReadCvBit cv b pos v]).
  Definition writeCv (cv b : Z) : M Z := fun s =>
    let '(v, i) := e_writeCv E (app s) cv b in
    Ok (u8 v, Mk_st (rxs s) i (pending s), [EWriteCv cv b (u8 v)]).
  Definition writeCvBit (cv : Z) (b : bool) (pos : Z) : M bool := fun s =>
    let '(v, i) := e_writeCvBit E (app s) cv b pos in
    Ok (v, Mk_st (rxs s) i (pending s), [EWriteCvBit cv b pos v]).
  Definition call (e : event) : M unit := fun s =>
    Ok (tt, Mk_st (rxs s) (e_hook E (app s) e) (pending s), [e]).
  Definition rand : M Z := fun s =>
    let '(v, i) := e_rand E (app s) in Ok (v, Mk_st (rxs s) i (pending s), []).
  Definition now : M Z := fun s =>
    let '(v, i) := e_now E (app s) in Ok (v, Mk_st (rxs s) i (pending s), []).

  (** Backoff::operator bool on a member, rx/backoff.hpp:22-31 *)
  Definition test_backoff (getb : rx -> backoff) (setb : backoff -> rx -> rx) : M bool :=
    r <- get ;;
    n <- (if bo_count (getb r) =? 0 then rand else ret 0) ;;
    let '(res, b') := backoff_test (getb r) n in
    modify (setb b') ;;; ret res.

  (** init, rx/crtp_base.hpp:52-102. CV numbers are zero based as in the source
      (29u - 1u). *)
  Definition init : M unit :=
    cv29 <- readCv 28 ;;
    prim <- (if Z.testbit cv29 5 then
               cv17 <- readCv 16 ;; cv18 <- readCv 17 ;;
               lift (decode_address [cv17; cv18])
             else
               cv1 <- readCv 0 ;; lift (decode_address [cv1])) ;;
    modify (set_primary (Addr (aval prim) (atyp prim) (Z.testbit cv29 0))) ;;;
    cv19 <- readCv 18 ;;
    cv20 <- readCv 19 ;;
    modify (set_consist (Addr (u16 (100 * Z.land cv20 0x7F + Z.land cv19 0x7F))
                              ATLong (Z.testbit cv19 7))) ;;;
    modify (set_f0_exception (negb (Z.testbit cv29 1))) ;;;
    cv15 <- readCv 14 ;;
    cv16 <- readCv 15 ;;
    modify (set_cvs_locked (negb (cv15 =? cv16) && negb (cv15 =? 0) && negb (cv16 =? 0))) ;;;
    let bidi_enabled := Z.testbit cv29 3 in
    cv28 <- readCv 27 ;;
    modify (set_ch1_addr_enabled (bidi_enabled && Z.testbit cv28 0)) ;;;
    modify (set_ch2_data_enabled (bidi_enabled && Z.testbit cv28 1)) ;;;
    modify (set_logon_enabled (bidi_enabled && Z.testbit cv28 7)) ;;;
    modify (set_ch2_consist_enabled (bidi_enabled && Z.testbit cv20 7)) ;;;
    when (e_high_current E) (call (EHighCurrent (Z.testbit cv28 6))) ;;;
    d0 <- readCv 249 ;; d1 <- readCv 250 ;; d2 <- readCv 251 ;; d3 <- readCv 252 ;;
    modify (set_did [d0; d1; d2; d3]) ;;;
    c0 <- readCv 65296 ;; c1 <- readCv 65297 ;;
    modify (set_cid_front (u16 (Z.lor (Z.shiftl c0 8) c1))) ;;;
    sid <- readCv 65298 ;;
    modify (set_sid_front sid).

  (** reset, rx/crtp_base.hpp:870-873 *)
  Definition reset_fsm (f : fsm) : fsm :=
    Mk_fsm Preamble 0 0 0 (f_is_halfbit f) (f_packet f) (f_packet_end f).
  Definition reset : M unit := modify (fun r => set_r_fsm (reset_fsm (r_fsm r)) r).

  (** enable, disable, rx/crtp_base.hpp:105-115 *)
  Definition enable : M unit :=
    r <- get ;;
    if enabled_flag (r_cv r) then ret tt else modify (set_enabled_flag true).
  Definition disable : M unit :=
    r <- get ;;
    if negb (enabled_flag (r_cv r)) then ret tt
    else modify (set_enabled_flag false) ;;; reset.

  (** ---------------------------------------------------------------------- *)
  (** Automatic logon (handler mode) *)

  (** assert(!full(_logon_deque)); _logon_deque.push_back(...),
      rx/crtp_base.hpp:956-957,979-980,1003-1004 *)
  Definition push_logon (d : list Z) : M unit :=
    r <- get ;;
    if (length (logon_deque (r_logon r)) <? 1)%nat
    then modify (set_logon_deque (logon_deque (r_logon r) ++ [d]))
    else fail AssertFailed.

  (** logonEnable, rx/crtp_base.hpp:921-964 *)
  Definition logonEnable (gg : address_group) (cid session_id : Z) : M unit :=
    r <- get ;;
    if negb (logon_enabled (r_conf r)) || logon_selected (r_logon r) then ret tt
    else
      modify (set_cid_back cid) ;;;
      modify (set_sid_back session_id) ;;;
      r <- get ;;
      skip <-
        (if cid_back (r_logon r) =? cid_front (r_logon r) then
           let diff := u32 (sid_back (r_logon r) - sid_front (r_logon r)) in
           let skip := diff <=? 4 in
           modify (set_logon_store skip) ;;;
           modify (set_logon_assigned skip) ;;;
           modify (set_logon_selected skip) ;;;
           if skip then
             a0 <- readCv 65299 ;; a1 <- readCv 65300 ;;
             a <- lift (decode_address [a0; a1]) ;;
             modify (set_logon a) ;;; ret true
           else
             modify (fun r => set_logon (addr_set_value (logon (r_addrs r)) 0) r) ;;;
             ret false
         else ret false) ;;
      if skip then ret tt
      else
        match gg with
        | GAcc => ret tt
        | _ =>
            match gg with
            | GNow => modify (fun r => set_logon_backoff (backoff_now (logon_backoff (r_logon r))) r)
            | _ => ret tt
            end ;;;
            b <- test_backoff (fun r => logon_backoff (r_logon r)) set_logon_backoff ;;
            if b then ret tt
            else
              r <- get ;;
              (if (length (logon_deque (r_logon r)) <? 1)%nat then ret tt else fail AssertFailed) ;;;
              d0 <- at_ (did (r_conf r)) 0 ;; d1 <- at_ (did (r_conf r)) 1 ;;
              d2 <- at_ (did (r_conf r)) 2 ;; d3 <- at_ (did (r_conf r)) 3 ;;
              dg <- lift (rbind (make_datagram_id B48 15
                            (Z.lor (Z.lor (Z.lor (Z.lor
                               (Z.shiftl manufacturer_id 32) (Z.shiftl d0 24))
                               (Z.shiftl d1 16)) (Z.shiftl d2 8)) d3))
                            encode_datagram) ;;
              push_logon dg
        end.

  (** Datagram of 5 data bytes and their CRC, rx/crtp_base.hpp:980-985, 1004-1007 *)
  Definition crc_datagram (data : list Z) : res (list Z) :=
    match data with
    | [a; b; c; d; e] =>
        rbind (make_datagram B48
                 (Z.lor (Z.lor (Z.lor (Z.lor (Z.lor
                    (Z.shiftl a 40) (Z.shiftl b 32)) (Z.shiftl c 24))
                    (Z.shiftl d 16)) (Z.shiftl e 8)) (crc8 data)))
              encode_datagram
    | _ => UB OutOfBounds
    end.

  (** logonSelect, rx/crtp_base.hpp:969-986 *)
  Definition logonSelect (d : list Z) : M unit :=
    r <- get ;;
    if negb (logon_enabled (r_conf r)) || logon_assigned (r_logon r)
       || negb (list_eqb d (did (r_conf r))) then ret tt
    else
      modify (set_logon_selected true) ;;;
      (if (length (logon_deque (r_logon r)) <? 1)%nat then ret tt else fail AssertFailed) ;;;
      let p := aval (primary (r_addrs r)) in
      dg <- lift (crc_datagram [u8 (Z.lor 0x80 (Z.shiftr p 8)); u8 p; 0; 0; 0]) ;;
      push_logon dg.

  (** logonAssign, rx/crtp_base.hpp:993-1008 *)
  Definition logonAssign (d : list Z) (addr : address) (overwrite_primary : bool) : M unit :=
    r <- get ;;
    if negb (logon_enabled (r_conf r)) || negb (list_eqb d (did (r_conf r))) then ret tt
    else
      modify (set_logon_store true) ;;;
      modify (set_logon_assigned true) ;;;
      modify (fun r => set_consist (addr_set_value (consist (r_addrs r)) 0) r) ;;;
      modify (set_logon addr) ;;;
      when (negb (aval addr =? 0) && overwrite_primary) (modify (set_primary addr)) ;;;
      (if (length (logon_deque (r_logon r)) <? 1)%nat then ret tt else fail AssertFailed) ;;;
      dg <- lift (crc_datagram [u8 (Z.shiftl 13 4); 0; 0; 0; 0]) ;;
      push_logon dg.

  (** executeAutomaticLogon, rx/crtp_base.hpp:379-424 *)
  Definition executeAutomaticLogon (addr : address) (bytes : list Z) : M bool :=
    if negb (aval addr =? 254) then ret false
    else
      b0 <- at_ bytes 0 ;;
      (if Z.land b0 0xF0 =? 0xD0 then
         d <- lift (subspan4 bytes 2) ;; logonSelect d
       else if Z.land b0 0xF0 =? 0xE0 then
         d <- lift (subspan4 bytes 2) ;;
         b6 <- at_ bytes 6 ;;
         let ow := negb (Z.land b6 0xC0 =? 0xC0) in
         let a13_8 := Z.land b6 0x3F in
         if a13_8 <? 0x28 then
           a <- lift (decode_address (skipn 6 bytes)) ;; logonAssign d a ow
         else if a13_8 <? 0x38 then ret tt
         else if a13_8 <? 0x39 then
           a <- lift (decode_address (skipn 7 bytes)) ;; logonAssign d a ow
         else ret tt
       else if Z.land b0 0xF0 =? 0xF0 then
         cid <- lift (data2uint16 (skipn 1 bytes)) ;;
         sid <- at_ bytes 3 ;;
         logonEnable (group_of b0) cid sid
       else ret tt) ;;;
      ret true.

  (** executeHandlerMode, rx/crtp_base.hpp:262-268 *)
  Definition executeHandlerMode : M bool :=
    r <- get ;;
    if negb (atype_eqb (atyp (received (r_addrs r))) ATLogon) then ret false
    else
      let p := f_packet (r_fsm r) in
      ok <- (if (length p <=? 6 + 1)%nat then ret true
             else c <- lift (crc8_packet p) ;; ret (c =? 0)) ;;
      (if ok then executeAutomaticLogon (received (r_addrs r)) (skipn 1 p) ;;; ret tt
       else ret tt) ;;;
      ret true.

  (** ---------------------------------------------------------------------- *)
  (** Bit receiver *)

  (** case Endbit with a one bit, rx/crtp_base.hpp:161-173 *)
  Definition receive_packet_end : M unit :=
    r <- get ;;
    (if (f_checksum (r_fsm r) =? 0) && (3 <=? length (f_packet (r_fsm r)))%nat then
       modify (set_f_packet_end true) ;;;
       modify (fun r => set_packet_count (packet_count (r_cnt r) + 1) r) ;;;
       a <- lift (decode_address (f_packet (r_fsm r))) ;;
       modify (set_received a) ;;;
       handled <- executeHandlerMode ;;
       if (handled : bool) then ret tt
       else
         r <- get ;;
         if (length (r_deque r) <? rx_deque_size)%nat
         then modify (set_r_deque (r_deque r ++ [f_packet (r_fsm r)]))
         else fail DequeFull
     else
       modify (set_received addr0) ;;;
       modify (set_f_packet [])) ;;;
    reset.

  (** The switch of receive, rx/crtp_base.hpp:129-174 *)
  Definition receive_bit (bit : bool) : M unit :=
    r <- get ;;
    let f := r_fsm r in
    if (length (r_deque r) =? rx_deque_size)%nat then reset
    else
      match f_state f with
      | Preamble =>
          if bit then modify (set_f_bit_count (S (f_bit_count f)))
          else if (f_bit_count f <? rx_min_preamble_bits * 2)%nat then reset
          else modify (set_f_state Startbit)
      | Startbit =>
          modify (set_f_packet []) ;;;
          modify (set_f_bit_count 0) ;;;
          modify (set_f_is_halfbit false) ;;;
          modify (fun r => set_preamble_count (preamble_count (r_cnt r) + 1) r) ;;;
          modify (set_f_state Data)
      | Data =>
          let b := u8 (Z.lor (Z.shiftl (f_byte f) 1) (Z.b2z bit)) in
          modify (set_f_byte b) ;;;
          modify (set_f_bit_count (S (f_bit_count f))) ;;;
          if (S (f_bit_count f) <? 8)%nat then ret tt
          else if (length (f_packet f) <? max_packet_size)%nat then
            modify (set_f_packet (f_packet f ++ [b])) ;;;
            modify (set_f_checksum (u8 (Z.lxor (f_checksum f) b))) ;;;
            modify (set_f_bit_count 0) ;;;
            modify (set_f_byte 0) ;;;
            modify (set_f_state Endbit)
          else fail PacketFull
      | Endbit => if negb bit then modify (set_f_state Data) else receive_packet_end
      end.

  (** receive, rx/crtp_base.hpp:120-175 *)
  Definition receive (time : Z) : M unit :=
    modify (set_f_packet_end false) ;;;
    match time2bit time with
    | None => ret tt
    | Some bit =>
        r <- get ;;
        match f_state (r_fsm r) with
        | Preamble | Startbit => receive_bit bit
        | Data | Endbit =>
            let h := negb (f_is_halfbit (r_fsm r)) in
            modify (set_f_is_halfbit h) ;;;
            if h then ret tt else receive_bit bit
        end
    end.

  (** ---------------------------------------------------------------------- *)
  (** CV access *)

  (** pom, rx/crtp_base.hpp:892-896 *)
  Definition pom (value : Z) : M unit :=
    r <- get ;;
    if negb (ch2_data_enabled (r_conf r)) then ret tt
    else
      dg <- lift (rbind (make_datagram_id B12 0 value) encode_datagram) ;;
      modify (set_pom_deque [dg]).

  (** Callbacks of cvVerifyImpl/cvWriteImpl, rx/crtp_base.hpp:731-734, 778-781 *)
  Definition cb_byte (b red : Z) : M unit :=
    r <- get ;;
    if negb (service_mode (r_cv r)) then pom red
    else if b =? red then call EServiceAck else ret tt.

  (** rx/crtp_base.hpp:745-748, 792-795 *)
  Definition cb_bit (b red : bool) : M unit :=
    r <- get ;;
    if negb (service_mode (r_cv r)) then pom (Z.b2z red)
    else if Bool.eqb b red then call EServiceAck else ret tt.

  (** Invocation of a callback with value [v] *)
  Definition run_cb (c : pend) (v : Z) : M unit :=
    match c with
    | PendByte b => cb_byte b (u8 v)
    | PendBit b => cb_bit b (negb (v =? 0))
    end.

  (** impl().readCv(..., cb) / writeCv(..., cb) of an asynchronous application *)
  Definition call_async (e : event) (c : pend) : M unit := fun s =>
    let '(v, i) := e_async E (app s) e in
    match v with
    | Some v =>
        match run_cb c v (Mk_st (rxs s) i (pending s)) with
        | Ok (u, s', es) => Ok (u, s', e :: es)
        | UB r => UB r
        end
    | None => Ok (tt, Mk_st (rxs s) i (pending s ++ [c]), [e])
    end.

  (** cvVerify for bytes, rx/crtp_base.hpp:721-737 *)
  Definition cvVerify (cv_addr b : Z) : M unit :=
    r <- get ;;
    if cvs_locked (r_conf r) then ret tt
    else if e_async_readable E then call_async (EReadCvByteAsync cv_addr b) (PendByte b)
    else v <- readCvByte cv_addr b ;; cb_byte b v.

  (** cvVerify for bits, rx/crtp_base.hpp:721-724, 744-751 *)
  Definition cvVerifyBit (cv_addr : Z) (b : bool) (pos : Z) : M unit :=
    r <- get ;;
    if cvs_locked (r_conf r) then ret tt
    else if e_async_readable E then call_async (EReadCvBitAsync cv_addr b pos) (PendBit b)
    else v <- readCvBit cv_addr b pos ;; cb_bit b v.

  (** rx/crtp_base.hpp:760-770 *)
  Definition reinit (cv_addr : Z) : M unit :=
    when (existsb (Z.eqb cv_addr) init_cvs) init.

  (** cvWrite for bytes, rx/crtp_base.hpp:757-784 *)
  Definition cvWrite (cv_addr b : Z) : M unit :=
    r <- get ;;
    if cvs_locked (r_conf r) && negb (cv_addr =? 14) then ret tt
    else
      (if e_async_writable E then call_async (EWriteCvAsync cv_addr b) (PendByte b)
       else v <- writeCv cv_addr b ;; cb_byte b v) ;;;
      reinit cv_addr.

  (** cvWrite for bits, rx/crtp_base.hpp:757-771, 791-798 *)
  Definition cvWriteBit (cv_addr : Z) (b : bool) (pos : Z) : M unit :=
    r <- get ;;
    if cvs_locked (r_conf r) && negb (cv_addr =? 14) then ret tt
    else
      (if e_async_writable E then call_async (EWriteCvBitAsync cv_addr b pos) (PendBit b)
       else v <- writeCvBit cv_addr b pos ;; cb_bit b v) ;;;
      reinit cv_addr.

  (** countOwnEqualCvPackets, rx/crtp_base.hpp:860-867 *)
  Definition countOwnEqualCvPackets : M unit :=
    r <- get ;;
    front <- (match r_deque r with p :: _ => ret p | [] => fail OutOfBounds end) ;;
    if list_eqb (last_own_cv_packet (r_cv r)) front
    then modify (set_own_equal_cv_packets_count (S (own_equal_cv_packets_count (r_cv r))))
    else
      modify (set_own_equal_cv_packets_count 1) ;;;
      modify (set_last_own_cv_packet front) ;;;
      modify (set_pom_deque []).

  (** cvLong, rx/crtp_base.hpp:640-673 *)
  Definition cvLong (addr : Z) (bytes : list Z) : M unit :=
    r <- get ;;
    if negb (addr =? 0) && (addr =? aval (consist (r_addrs r))) then ret tt
    else
      countOwnEqualCvPackets ;;;
      r <- get ;;
      let cnt := own_equal_cv_packets_count (r_cv r) in
      if service_mode (r_cv r) && negb (cnt =? 2)%nat then ret tt
      else
        b0 <- at_ bytes 0 ;; b1 <- at_ bytes 1 ;;
        let cv_addr := Z.lor (Z.shiftl (Z.land b0 3) 8) b1 in
        let kk := Z.land (Z.shiftr b0 2) 3 in
        if kk =? 0 then ret tt
        else if kk =? 1 then
          b2 <- at_ bytes 2 ;; cvVerify cv_addr b2
        else if kk =? 3 then
          if (cnt <? 2)%nat then ret tt
          else if (cnt =? 2)%nat then b2 <- at_ bytes 2 ;; cvWrite cv_addr b2
          else b2 <- at_ bytes 2 ;; cvVerify cv_addr b2
        else
          b2 <- at_ bytes 2 ;;
          let pos := Z.land b2 7 in
          let bit := Z.testbit b2 3 in
          if negb (Z.testbit b2 4) then cvVerifyBit cv_addr bit pos
          else if (cnt =? 2)%nat then cvWriteBit cv_addr bit pos
          else ret tt.

  (** cvShort, rx/crtp_base.hpp:679-715 *)
  Definition cvShort (addr : Z) (bytes : list Z) : M unit :=
    r <- get ;;
    if negb (addr =? 0) && (addr =? aval (consist (r_addrs r))) then ret tt
    else
      countOwnEqualCvPackets ;;;
      r <- get ;;
      let cnt := own_equal_cv_packets_count (r_cv r) in
      b0 <- at_ bytes 0 ;;
      let n := Z.land b0 0x0F in
      if n =? 2 then b1 <- at_ bytes 1 ;; cvWrite 22 b1
      else if n =? 3 then b1 <- at_ bytes 1 ;; cvWrite 23 b1
      else if n =? 4 then
        if negb (cnt =? 2)%nat then ret tt
        else
          b1 <- at_ bytes 1 ;; cvWrite 16 (u8 (Z.lor 0xC0 b1)) ;;;
          b2 <- at_ bytes 2 ;; cvWrite 17 b2 ;;;
          cvWriteBit 28 true 5
      else if n =? 5 then
        if negb (cnt =? 2)%nat then ret tt
        else
          b1 <- at_ bytes 1 ;; cvWrite 30 b1 ;;;
          b2 <- at_ bytes 2 ;; cvWrite 31 b2
      else ret tt.

  (** registerMode, rx/crtp_base.hpp:803-827. The index computation is uint32_t
      arithmetic. *)
  Definition registerMode (bytes : list Z) : M unit :=
    b0 <- at_ bytes 0 ;;
    let w := Z.testbit b0 3 in
    let reg := Z.land b0 7 in
    r <- get ;;
    let acc cv := (b1 <- at_ bytes 1 ;; if w then cvWrite cv b1 else cvVerify cv b1) in
    if reg <=? 3 then acc (u32 (index_reg (r_cv r) * 4 - (4 - reg)))
    else if reg =? 4 then acc 28
    else if reg =? 5 then
      b1 <- at_ bytes 1 ;;
      if w then modify (set_index_reg b1)
      else if index_reg (r_cv r) =? b1 then call EServiceAck else ret tt
    else acc reg.

  (** ---------------------------------------------------------------------- *)
  (** Operations mode commands *)

  (** serviceMode(bool), rx/crtp_base.hpp:878-887 *)
  Definition serviceMode (enter : bool) : M unit :=
    call (EServiceModeHook enter) ;;; modify (set_service_mode enter).

  (** consistControl, rx/crtp_base.hpp:433-435 *)
  Definition consistControl (bytes : list Z) : M unit :=
    b0 <- at_ bytes 0 ;; b1 <- at_ bytes 1 ;;
    cvWrite 18 (u8 (Z.lor (Z.shiftl b0 7) b1)).

  (** directionSpeed, rx/crtp_base.hpp:852-857 *)
  Definition directionSpeed (addr : Z) (dir : bool) (speed : Z) : M unit :=
    r <- get ;;
    let reversed := if addr =? aval (primary (r_addrs r))
                    then arev (primary (r_addrs r)) else arev (consist (r_addrs r)) in
    call (EDirection addr (if reversed then negb dir else dir)) ;;;
    call (ESpeed addr speed).

  (** case 0b0011'1111, rx/crtp_base.hpp:464-476 *)
  Definition speed126 (addr : Z) (bytes : list Z) : M unit :=
    b1 <- at_ bytes 1 ;;
    let dir := Z.testbit b1 7 in
    if Z.land b1 0x7F =? 0 then directionSpeed addr dir Stop
    else if Z.land b1 0x7E =? 0 then call (ESpeed addr EStop)
    else directionSpeed addr dir (scale_speed 126 (Z.land b1 0x7F - 1)).

  (** advancedOperations, rx/crtp_base.hpp:441-496 *)
  Definition advancedOperations (addr : Z) (bytes : list Z) : M unit :=
    b0 <- at_ bytes 0 ;;
    if b0 =? 0x3C then
      let n := length bytes in
      when (3 <? n)%nat
        (b <- at_ bytes 2 ;; call (EFunction addr (Z.shiftl 0xFF 0) (u32 (Z.shiftl b 0)))) ;;;
      when (4 <? n)%nat
        (b <- at_ bytes 3 ;; call (EFunction addr (Z.shiftl 0xFF 8) (u32 (Z.shiftl b 8)))) ;;;
      when (5 <? n)%nat
        (b <- at_ bytes 4 ;; call (EFunction addr (Z.shiftl 0xFF 16) (u32 (Z.shiftl b 16)))) ;;;
      when (6 <? n)%nat
        (b <- at_ bytes 5 ;; call (EFunction addr (Z.shiftl 0xFF 0) (u32 (Z.shiftl b 24)))) ;;;
      speed126 addr bytes
    else if b0 =? 0x3F then speed126 addr bytes
    else if b0 =? 0x3E then
      b1 <- at_ bytes 1 ;;
      modify (set_man_flag (Z.testbit b1 7)) ;;;
      when (e_east_west E)
        (if Z.testbit b1 6 then call (EEastWest addr (Some true))
         else call (EEastWest addr (Some false)))
      (* [else if (ztl::make_mask(5u))] is constantly true (line 484), the branch
         of lines 486-487 is unreachable *)
    else ret tt.

  (** speedAndDirection, rx/crtp_base.hpp:502-529 *)
  Definition speedAndDirection (addr : Z) (bytes : list Z) : M unit :=
    b0 <- at_ bytes 0 ;;
    let dir := Z.testbit b0 5 in
    if negb (Z.land b0 0x0F =? 0) && (Z.land b0 0x0E =? 0) then call (ESpeed addr EStop)
    else
      let speed := if Z.land b0 0x0F =? 0 then Stop else Z.land b0 0x0F - 1 in
      r <- get ;;
      if f0_exception (r_conf r) then
        call (EFunction addr 1 (if Z.testbit b0 4 then 1 else 0)) ;;;
        directionSpeed addr dir (scale_speed 14 speed)
      else
        let speed := Z.shiftl speed 1 in
        let speed := if negb (speed =? 0) && negb (Z.testbit b0 4) then speed - 1 else speed in
        directionSpeed addr dir (scale_speed 28 speed).

  (** functionGroup, rx/crtp_base.hpp:538-566. The switch is exhaustive for
      FunctionGroup instructions (0x80..0xBF). *)
  Definition functionGroup (addr : Z) (bytes : list Z) : M unit :=
    b0 <- at_ bytes 0 ;;
    r <- get ;;
    let n := Z.land b0 0xF0 in
    let '(mask, state) :=
      if (n =? 0x80) || (n =? 0x90) then
        (if f0_exception (r_conf r) then 0x1E else 0x1F,
         Z.lor (Z.shiftl (Z.land b0 0x0F) 1) (Z.shiftr (Z.land b0 0x10) 4))
      else if n =? 0xB0 then (0x1E0, Z.shiftl (Z.land b0 0x0F) 5)
      else if n =? 0xA0 then (0x1E00, Z.shiftl (Z.land b0 0x0F) 9)
      else (0, 0) in
    call (EFunction addr mask state).

  (** tipOffSearch, rx/crtp_base.hpp:899-914. Writing to *end() of the empty deque
      and push_back() afterwards is modelled as pushing the finished datagram. *)
  Definition tipOffSearch : M unit :=
    b <- test_backoff (fun r => tos_backoff (r_time r)) set_tos_backoff ;;
    r <- get ;;
    if b || negb (length (tos_deque (r_bidi r)) =? 0)%nat then ret tt
    else
      let sec := Z.quot (last_packet_tp (r_time r) - tos_tp (r_time r)) 1000000000 in
      if 30 <=? sec then ret tt
      else
        hi <- lift (adrHigh r (primary (r_addrs r))) ;;
        lo <- lift (adrLow r (primary (r_addrs r))) ;;
        tm <- lift (rbind (make_datagram_id B12 14 (u32 sec)) encode_datagram) ;;
        modify (set_tos_deque (tos_deque (r_bidi r) ++ [hi ++ lo ++ tm])).

  (** binaryState, rx/crtp_base.hpp:837-845 *)
  Definition binaryState (xf : Z) (state : bool) : M unit :=
    if xf =? 2 then (if negb state then tipOffSearch else ret tt) else ret tt.

  (** featureExpansion, rx/crtp_base.hpp:575-633. Time, system time, command
      station properties and F29-F68 have no effect in the source. *)
  Definition featureExpansion (addr : Z) (bytes : list Z) : M unit :=
    b0 <- at_ bytes 0 ;;
    if b0 =? 0xC0 then
      b2 <- at_ bytes 2 ;; b1 <- at_ bytes 1 ;;
      binaryState (Z.lor (Z.shiftl b2 7) (Z.land b1 0x7F)) (Z.testbit b1 7)
    else if b0 =? 0xDD then
      b1 <- at_ bytes 1 ;; binaryState (Z.land b1 0x7F) (Z.testbit b1 7)
    else if b0 =? 0xDE then
      b1 <- at_ bytes 1 ;; call (EFunction addr 0x1FE000 (u32 (Z.shiftl b1 13)))
    else if b0 =? 0xDF then
      b1 <- at_ bytes 1 ;; call (EFunction addr 0x1FE00000 (u32 (Z.shiftl b1 21)))
    else ret tt.

  (** executeOperationsAddressed, rx/crtp_base.hpp:337-371 *)
  Definition executeOperationsAddressed (addr : address) (bytes : list Z) : M bool :=
    r <- get ;;
    let exec (a : Z) : M bool :=
      i <- lift (decode_instruction bytes) ;;
      match i with
      | IDecoderControl =>
          if a =? 0 then b0 <- at_ bytes 0 ;; (if b0 =? 0 then serviceMode true else ret tt)
          else ret tt
      | IConsistControl => consistControl bytes
      | IAdvancedOperations => advancedOperations a bytes
      | ISpeedDirection => speedAndDirection a bytes
      | IFunctionGroup => functionGroup a bytes
      | IFeatureExpansion => featureExpansion a bytes
      | ICvLong => cvLong a bytes
      | ICvShort => cvShort a bytes
      | IUnknownService | ILogon => ret tt
      end ;;; ret true in
    let ad := r_addrs r in
    if aval addr =? 0 then exec 0
    else if (addr_eqb addr (primary ad) || addr_eqb addr (consist ad))
            && (aval (logon ad) =? 0) then exec (aval addr)
    else if addr_eqb addr (logon ad) then exec (aval (primary ad))
    else ret false.

  (** executeOperations, rx/crtp_base.hpp:289-308; system commands (327-329) have no
      effect *)
  Definition executeOperations : M bool :=
    r <- get ;;
    p <- (match r_deque r with p :: _ => ret p | [] => fail OutOfBounds end) ;;
    a <- lift (decode_address p) ;;
    match atyp a with
    | ATBroadcast | ATShort => executeOperationsAddressed a (skipn 1 p)
    | ATLong => executeOperationsAddressed a (skipn 2 p)
    | _ => ret false
    end.

  (** executeService, rx/crtp_base.hpp:313-324 *)
  Definition executeService : M bool :=
    r <- get ;;
    p <- (match r_deque r with p :: _ => ret p | [] => fail OutOfBounds end) ;;
    p0 <- at_ p 0 ;;
    (if p0 =? 0 then ret tt
     else if negb (Z.land p0 0xF0 =? 0x70) then serviceMode false
     else if (length p =? 3)%nat then registerMode p
     else if (length p =? 4)%nat then cvLong 0 p
     else ret tt) ;;;
    ret true.

  (** adr, rx/crtp_base.hpp:1011-1032. The deque is empty and has capacity 2. *)
  Definition adr : M unit :=
    r <- get ;;
    let push a :=
      hi <- lift (adrHigh r a) ;; lo <- lift (adrLow r a) ;;
      modify (set_adr_deque (adr_deque (r_bidi r) ++ [hi; lo])) in
    let ad := r_addrs r in
    if negb (ch1_addr_enabled (r_conf r)) || negb (length (adr_deque (r_bidi r)) =? 0)%nat
    then ret tt
    else if negb (aval (logon ad) =? 0) then push (logon ad)
    else if aval (consist ad) =? 0 then push (primary ad)
    else if (0 <? aval (consist ad)) && (aval (consist ad) <? 128) then push (consist ad)
    else ret tt.

  (** logonStore, rx/crtp_base.hpp:1150-1174 *)
  Definition logonStore : M unit :=
    r <- get ;;
    if negb (logon_store (r_logon r)) then ret tt
    else
      modify (set_logon_store false) ;;;
      let p := primary (r_addrs r) in
      let l := logon (r_addrs r) in
      when (addr_eqb p l)
        (writeCv 16 (u8 (Z.lor 0xC0 (Z.shiftr (aval p) 8))) ;;;
         writeCv 17 (u8 (aval p)) ;;;
         writeCvBit 28 true 5 ;;; ret tt) ;;;
      writeCv 18 0 ;;;
      writeCv 19 0 ;;;
      modify (set_cid_front (cid_back (r_logon r))) ;;;
      writeCv 65296 (u8 (Z.shiftr (cid_back (r_logon r)) 8)) ;;;
      writeCv 65297 (u8 (cid_back (r_logon r))) ;;;
      modify (set_sid_front (sid_back (r_logon r))) ;;;
      writeCv 65298 (sid_back (r_logon r)) ;;;
      writeCv 65299 (u8 (Z.shiftr (aval l) 8)) ;;;
      writeCv 65300 (u8 (aval l)) ;;;
      ret tt.

  (** updateQos, rx/crtp_base.hpp:1179-1184 *)
  Definition updateQos : M unit :=
    r <- get ;;
    let c := r_cnt r in
    if preamble_count c <? 100 then ret tt
    else
      modify (set_qos (u8 (100 - (packet_count c * 100) / preamble_count c))) ;;;
      modify (set_packet_count 0) ;;;
      modify (set_preamble_count 0).

  (** updateTimepoints, rx/crtp_base.hpp:1189-1197 *)
  Definition updateTimepoints : M unit :=
    tp <- now ;;
    r <- get ;;
    when (2000000000 <=? tp - last_packet_tp (r_time r))
      (modify (fun r => set_tos_backoff (backoff_now (tos_backoff (r_time r))) r) ;;;
       modify (set_tos_tp tp)) ;;;
    modify (set_last_packet_tp tp).

  (** serviceMode() ? executeService() : executeOperations(), rx/crtp_base.hpp:280 *)
  Definition executeCommand : M bool :=
    r <- get ;;
    if service_mode (r_cv r) then executeService else executeOperations.

  (** _deque.pop_front(), rx/crtp_base.hpp:281 *)
  Definition popFront : M unit :=
    r <- get ;;
    match r_deque r with
    | [] => fail OutOfBounds
    | _ :: q => modify (set_r_deque q)
    end.

  (** executeThreadMode and execute, rx/crtp_base.hpp:181, 274-283 *)
  Definition execute : M bool :=
    r <- get ;;
    if f_packet_end (r_fsm r) || (length (r_deque r) =? 0)%nat then ret false
    else
      adr ;;;
      logonStore ;;;
      updateQos ;;;
      updateTimepoints ;;;
      b <- executeCommand ;;
      popFront ;;;
      ret b.

  (** ---------------------------------------------------------------------- *)
  (** BiDi *)

  (** dyn(uint8_t, uint8_t), rx/crtp_base.hpp:1058-1062 *)
  Definition dyn_push (d x : Z) : M unit :=
    r <- get ;;
    if negb (ch2_data_enabled (r_conf r))
       || (length (dyn_deque (r_bidi r)) =? rx_bidi_deque_size)%nat then ret tt
    else
      dg <- lift (rbind (make_datagram_id B18 7 (Z.lor (Z.shiftl d 6) x)) encode_datagram) ;;
      modify (set_dyn_deque (dyn_deque (r_bidi r) ++ [dg])).

  Fixpoint dyn_all (ds : list dyn_arg) : M unit :=
    match ds with
    | [] => ret tt
    | a :: r => dyn_push (fst (dyn_convert a)) (snd (dyn_convert a)) ;;; dyn_all r
    end.

  (** datagram, rx/crtp_base.hpp:210-222 *)
  Definition datagram (ds : list dyn_arg) : M unit :=
    r <- get ;;
    (if (length (dyn_deque (r_bidi r)) =? rx_bidi_deque_size)%nat
     then modify (set_block_dyn true)
     else if (length (dyn_deque (r_bidi r)) =? 0)%nat then
       modify (set_block_dyn false) ;;; dyn_push (qos (r_cnt r)) 7
     else ret tt) ;;;
    r <- get ;;
    if block_dyn (r_bidi r) then ret tt else dyn_all ds.

  (** appAdr, rx/crtp_base.hpp:1065-1070 *)
  Definition appAdr : M unit :=
    r <- get ;;
    match adr_deque (r_bidi r) with
    | [] => ret tt
    | d :: q =>
        modify (set_ch1 d) ;;;
        r <- get ;;
        call (ETransmitBiDi (ch1 (r_bidi r))) ;;;
        modify (set_adr_deque q)
    end.

  (** appPom, rx/crtp_base.hpp:1073-1084 *)
  Definition appPom : M unit :=
    r <- get ;;
    if negb (ch2_data_enabled (r_conf r)) then ret tt
    else if negb (list_eqb (f_packet (r_fsm r)) (last_own_cv_packet (r_cv r)))
    then call (ETransmitBiDi (firstn 1 acks))
    else
      match pom_deque (r_bidi r) with
      | [] => ret tt
      | d :: q =>
          modify (set_ch2 (overwrite (ch2 (r_bidi r)) 0 d)) ;;;
          r <- get ;;
          call (ETransmitBiDi (firstn (length d) (ch2 (r_bidi r)))) ;;;
          modify (set_pom_deque q)
      end.

  (** appDyn, rx/crtp_base.hpp:1087-1097 *)
  Definition appDyn : M unit :=
    r <- get ;;
    match dyn_deque (r_bidi r) with
    | [] => ret tt
    | dq =>
        x <- lift (dyn_loop dq (ch2 (r_bidi r)) 0) ;;
        let '(rest, buf, pos) := x in
        modify (set_dyn_deque rest) ;;;
        modify (set_ch2 buf) ;;;
        call (ETransmitBiDi (firstn pos buf))
    end.

  (** appTos, rx/crtp_base.hpp:1100-1106 *)
  Definition appTos : M unit :=
    r <- get ;;
    match tos_deque (r_bidi r) with
    | [] => ret tt
    | d :: q =>
        modify (set_ch2 (overwrite (ch2 (r_bidi r)) 0 d)) ;;;
        r <- get ;;
        call (ETransmitBiDi (firstn (length d) (ch2 (r_bidi r)))) ;;;
        modify (set_tos_deque q)
    end.

  (** appLogon, rx/crtp_base.hpp:1109-1119 *)
  Definition appLogon (ch : Z) : M unit :=
    r <- get ;;
    match logon_deque (r_logon r) with
    | [] => ret tt
    | d :: q =>
        if ch =? 1 then
          modify (set_ch1 (overwrite (ch1 (r_bidi r)) 0 (firstn 2 d))) ;;;
          r <- get ;;
          call (ETransmitBiDi (ch1 (r_bidi r)))
        else
          modify (set_ch2 (overwrite (ch2 (r_bidi r)) 0 (skipn 2 d))) ;;;
          r <- get ;;
          call (ETransmitBiDi (ch2 (r_bidi r))) ;;;
          modify (set_logon_deque q)
    end.

  (** biDiChannel1, rx/crtp_base.hpp:225-233 *)
  Definition biDiChannel1 : M unit :=
    r <- get ;;
    match atyp (received (r_addrs r)) with
    | ATBroadcast | ATShort | ATLong => appAdr
    | ATLogon => appLogon 1
    | _ => ret tt
    end.

  (** biDiChannel2, rx/crtp_base.hpp:236-251 *)
  Definition biDiChannel2 : M unit :=
    r <- get ;;
    let ad := r_addrs r in
    match atyp (received ad) with
    | ATBroadcast => appTos
    | ATShort | ATLong =>
        if addr_eqb (received ad)
             (if logon_assigned (r_logon r) then logon ad else primary ad) then
          i <- lift (decode_instruction_packet (f_packet (r_fsm r))) ;;
          match i with ICvLong => appPom | _ => appDyn end
        else if addr_eqb (received ad) (consist ad) && ch2_consist_enabled (r_conf r)
        then appDyn
        else ret tt
    | ATLogon => appLogon 2
    | _ => ret tt
    end.

  (** ---------------------------------------------------------------------- *)
  (** Histories: the public calls of rx::CrtpBase (rx/crtp_base.hpp:52-251) and the
      invocation of an outstanding asynchronous callback *)
  Inductive op :=
  | OInit | OEnable | ODisable
  | OReceive (time : Z)
  | OExecute
  | ODatagram (ds : list dyn_arg)
  | OBiDi1 | OBiDi2
  | OCallback (i : nat) (v : Z).

  Definition step (o : op) : M bool :=
    match o with
    | OInit => init ;;; ret false
    | OEnable => enable ;;; ret false
    | ODisable => disable ;;; ret false
    | OReceive t => receive t ;;; ret false
    | OExecute => execute
    | ODatagram ds => datagram ds ;;; ret false
    | OBiDi1 => biDiChannel1 ;;; ret false
    | OBiDi2 => biDiChannel2 ;;; ret false
    | OCallback i v => fun s =>
        match nth_error (pending s) i with
        | Some c => (run_cb c v ;;; ret false) s
        | None => Ok (false, s, [])
        end
    end.

  Fixpoint run (os : list op) : M unit :=
    match os with
    | [] => ret tt
    | o :: r => step o ;;; run r
    end.

  (** A freshly constructed decoder *)
  Definition st0 (i : I) : st I := Mk_st rx0 i [].
End Decoder.

Declare Scope rx_scope.
Notation "x <- m ;; k" := (bind m (fun x => k))
  (at level 61, m at next level, right associativity) : rx_scope.
Notation "m ;;; k" := (bind m (fun _ => k)) (at level 61, right associativity) : rx_scope.
