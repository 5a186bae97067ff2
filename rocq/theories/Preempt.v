(** execute() as a sequence of small steps between which interrupts may run
    (include/dcc/rx/crtp_base.hpp).

    Rx.v treats execute() as one uninterrupted call. In a decoder it runs in
    thread mode, while receive() (rx/crtp_base.hpp:120-175) and the cutout
    handlers biDiChannel1()/biDiChannel2() (rx/crtp_base.hpp:225-253) run from
    interrupts. Here every function that execute() calls is written down once
    more as a program whose steps are single accesses: one read of a member, one
    assignment, one deque operation, one read of a packet byte (through the span,
    hence from the front of the deque at that moment), or one call into the
    application. [flat] runs such a program without interrupts, [preempted] with
    interrupts before every step. The operations push_back, pop_front, clear and
    front of ztl::inplace_deque (external library, not part of the repository) are
    taken as single steps, and so is an interrupt. *)
From Verif Require Import Prelude Address Instruction Checksum Datagram Speed Packets Backoff RxState Rx.

Section Preempt.
  Context {I : Type} (E : Env I).
  Notation M := (@M I).

  (** A computation in steps; [Act] performs one step. No counterpart line. *)
  Inductive prog (A : Type) : Type :=
  | Done (a : A)
  | Act (B : Type) (m : M B) (k : B -> prog A).
  Arguments Done {A} a.
  Arguments Act {A} B m k.

  Fixpoint pbind {A C} (p : prog A) (f : A -> prog C) : prog C :=
    match p with
    | Done a => f a
    | Act B m k => Act B m (fun b => pbind (k b) f)
    end.

  Local Notation "x <- m ;; k" := (pbind m (fun x => k))
    (at level 61, m at next level, right associativity).
  Local Notation "m ;;; k" := (pbind m (fun _ => k)) (at level 61, right associativity).

  (** One step *)
  Definition act {B} (m : M B) : prog B := Act B m Done.

  (** Read of a member *)
  Definition gets {X} (f : rx -> X) : M X := fun s => Ok (f (rxs s), s, []).
  Definition rd {X} (f : rx -> X) : prog X := act (gets f).

  (** Assignment to a member *)
  Definition wr (f : rx -> rx) : prog unit := act (modify f).

  (** Call of a member function of the application without result *)
  Definition say (e : event) : prog unit := act (call E e).

  (** A computation on local values; takes no step unless it is undefined *)
  Definition local {A} (m : res A) : prog A :=
    match m with Ok a => Done a | UB r => act (fail r) end.

  Definition whenP (b : bool) (p : prog unit) : prog unit := if b then p else Done tt.

  (** _deque.front() (rx/crtp_base.hpp:291,314,862,864) *)
  Definition front : M (list Z) := fun s =>
    match r_deque (rxs s) with p :: _ => Ok (p, s, []) | [] => UB OutOfBounds end.

  (** bytes[i] of a span over the front packet that starts at byte [off]
      (e.g. rx/crtp_base.hpp:434, 504) *)
  Definition front_at (off i : nat) : M Z := fun s =>
    match r_deque (rxs s) with
    | p :: _ => match nth_error (skipn off p) i with
                | Some b => Ok (b, s, [])
                | None => UB OutOfBounds
                end
    | [] => UB OutOfBounds
    end.
  Definition byt (off i : nat) : prog Z := act (front_at off i).

  (** size(bytes) of such a span, rx/crtp_base.hpp:447-459 *)
  Definition front_size (off : nat) : M nat := fun s =>
    match r_deque (rxs s) with
    | p :: _ => Ok (length (skipn off p), s, [])
    | [] => UB OutOfBounds
    end.

  (** decode_address(packet) and decode_instruction(bytes) on the front packet,
      rx/crtp_base.hpp:292, 345 *)
  Definition front_address : M address := fun s =>
    match r_deque (rxs s) with
    | p :: _ => match decode_address p with Ok a => Ok (a, s, []) | UB r => UB r end
    | [] => UB OutOfBounds
    end.
  Definition front_instruction (off : nat) : M instruction := fun s =>
    match r_deque (rxs s) with
    | p :: _ => match decode_instruction (skipn off p) with
                | Ok i => Ok (i, s, []) | UB r => UB r
                end
    | [] => UB OutOfBounds
    end.

  (** Backoff::operator bool on _tos_backoff, rx/backoff.hpp:22-31 *)
  Definition tos_testP : prog bool :=
    b <- rd (fun r => tos_backoff (r_time r)) ;;
    n <- (if bo_count b =? 0 then act (rand E) else Done 0) ;;
    let '(res, b') := backoff_test b n in
    wr (set_tos_backoff b') ;;; Done res.

  (** init, rx/crtp_base.hpp:52-102. _addrs.primary is assigned first and its
      member reversed afterwards (lines 57-62), likewise _addrs.consist (69-71). *)
  Definition initP : prog unit :=
    cv29 <- act (readCv E 28) ;;
    prim <- (if Z.testbit cv29 5 then
               cv17 <- act (readCv E 16) ;; cv18 <- act (readCv E 17) ;;
               local (decode_address [cv17; cv18])
             else
               cv1 <- act (readCv E 0) ;; local (decode_address [cv1])) ;;
    wr (set_primary prim) ;;;
    wr (fun r => set_primary (Addr (aval (primary (r_addrs r))) (atyp (primary (r_addrs r)))
                                   (Z.testbit cv29 0)) r) ;;;
    cv19 <- act (readCv E 18) ;;
    cv20 <- act (readCv E 19) ;;
    wr (set_consist (Addr (u16 (100 * Z.land cv20 0x7F + Z.land cv19 0x7F))
                          ATLong false)) ;;;
    wr (fun r => set_consist (Addr (aval (consist (r_addrs r))) (atyp (consist (r_addrs r)))
                                   (Z.testbit cv19 7)) r) ;;;
    wr (set_f0_exception (negb (Z.testbit cv29 1))) ;;;
    cv15 <- act (readCv E 14) ;;
    cv16 <- act (readCv E 15) ;;
    wr (set_cvs_locked (negb (cv15 =? cv16) && negb (cv15 =? 0) && negb (cv16 =? 0))) ;;;
    let bidi_enabled := Z.testbit cv29 3 in
    cv28 <- act (readCv E 27) ;;
    wr (set_ch1_addr_enabled (bidi_enabled && Z.testbit cv28 0)) ;;;
    wr (set_ch2_data_enabled (bidi_enabled && Z.testbit cv28 1)) ;;;
    wr (set_logon_enabled (bidi_enabled && Z.testbit cv28 7)) ;;;
    wr (set_ch2_consist_enabled (bidi_enabled && Z.testbit cv20 7)) ;;;
    whenP (e_high_current E) (say (EHighCurrent (Z.testbit cv28 6))) ;;;
    d0 <- act (readCv E 249) ;; d1 <- act (readCv E 250) ;;
    d2 <- act (readCv E 251) ;; d3 <- act (readCv E 252) ;;
    wr (set_did [d0; d1; d2; d3]) ;;;
    c0 <- act (readCv E 65296) ;; c1 <- act (readCv E 65297) ;;
    wr (set_cid_front (u16 (Z.lor (Z.shiftl c0 8) c1))) ;;;
    sid <- act (readCv E 65298) ;;
    wr (set_sid_front sid).

  (** ---------------------------------------------------------------------- *)
  (** CV access *)

  (** pom, rx/crtp_base.hpp:892-896: the deque is cleared, then the datagram
      pushed *)
  Definition pomP (value : Z) : prog unit :=
    en <- rd (fun r => ch2_data_enabled (r_conf r)) ;;
    if negb en then Done tt
    else
      wr (set_pom_deque []) ;;;
      dg <- local (rbind (make_datagram_id B12 0 value) encode_datagram) ;;
      wr (fun r => set_pom_deque (pom_deque (r_bidi r) ++ [dg]) r).

  (** Callbacks of cvVerifyImpl/cvWriteImpl, rx/crtp_base.hpp:731-734, 778-781 *)
  Definition cb_byteP (b red : Z) : prog unit :=
    sm <- rd (fun r => service_mode (r_cv r)) ;;
    if negb sm then pomP red
    else if b =? red then say EServiceAck else Done tt.

  (** rx/crtp_base.hpp:745-748, 792-795 *)
  Definition cb_bitP (b red : bool) : prog unit :=
    sm <- rd (fun r => service_mode (r_cv r)) ;;
    if negb sm then pomP (Z.b2z red)
    else if Bool.eqb b red then say EServiceAck else Done tt.

  Definition run_cbP (c : pend) (v : Z) : prog unit :=
    match c with
    | PendByte b => cb_byteP b (u8 v)
    | PendBit b => cb_bitP b (negb (v =? 0))
    end.

  (** impl().readCv(..., cb) / writeCv(..., cb) of an asynchronous application,
      rx/crtp_base.hpp:735,749,782,796. The application invokes the callback at
      once or keeps it. *)
  Definition ask (e : event) (c : pend) : M (option Z) := fun s =>
    let '(v, i) := e_async E (app s) e in
    match v with
    | Some v => Ok (Some v, Mk_st (rxs s) i (pending s), [e])
    | None => Ok (None, Mk_st (rxs s) i (pending s ++ [c]), [e])
    end.
  Definition call_asyncP (e : event) (c : pend) : prog unit :=
    v <- act (ask e c) ;;
    match v with Some v => run_cbP c v | None => Done tt end.

  (** cvVerify for bytes, rx/crtp_base.hpp:721-737 *)
  Definition cvVerifyP (cv_addr b : Z) : prog unit :=
    l <- rd (fun r => cvs_locked (r_conf r)) ;;
    if l then Done tt
    else if e_async_readable E then call_asyncP (EReadCvByteAsync cv_addr b) (PendByte b)
    else v <- act (readCvByte E cv_addr b) ;; cb_byteP b v.

  (** cvVerify for bits, rx/crtp_base.hpp:721-724, 744-751 *)
  Definition cvVerifyBitP (cv_addr : Z) (b : bool) (pos : Z) : prog unit :=
    l <- rd (fun r => cvs_locked (r_conf r)) ;;
    if l then Done tt
    else if e_async_readable E then call_asyncP (EReadCvBitAsync cv_addr b pos) (PendBit b)
    else v <- act (readCvBit E cv_addr b pos) ;; cb_bitP b v.

  (** rx/crtp_base.hpp:760-770 *)
  Definition reinitP (cv_addr : Z) : prog unit :=
    whenP (existsb (Z.eqb cv_addr) init_cvs) initP.

  (** cvWrite for bytes, rx/crtp_base.hpp:757-784 *)
  Definition cvWriteP (cv_addr b : Z) : prog unit :=
    l <- rd (fun r => cvs_locked (r_conf r)) ;;
    if l && negb (cv_addr =? 14) then Done tt
    else
      (if e_async_writable E then call_asyncP (EWriteCvAsync cv_addr b) (PendByte b)
       else v <- act (writeCv E cv_addr b) ;; cb_byteP b v) ;;;
      reinitP cv_addr.

  (** cvWrite for bits, rx/crtp_base.hpp:757-771, 791-798 *)
  Definition cvWriteBitP (cv_addr : Z) (b : bool) (pos : Z) : prog unit :=
    l <- rd (fun r => cvs_locked (r_conf r)) ;;
    if l && negb (cv_addr =? 14) then Done tt
    else
      (if e_async_writable E then call_asyncP (EWriteCvBitAsync cv_addr b pos) (PendBit b)
       else v <- act (writeCvBit E cv_addr b pos) ;; cb_bitP b v) ;;;
      reinitP cv_addr.

  (** countOwnEqualCvPackets, rx/crtp_base.hpp:860-867 *)
  Definition countOwnP : prog unit :=
    p <- act front ;;
    l <- rd (fun r => last_own_cv_packet (r_cv r)) ;;
    if list_eqb l p
    then wr (fun r => set_own_equal_cv_packets_count (S (own_equal_cv_packets_count (r_cv r))) r)
    else
      wr (set_own_equal_cv_packets_count 1) ;;;
      q <- act front ;;
      wr (set_last_own_cv_packet q) ;;;
      wr (set_pom_deque []).

  (** addr && addr == _addrs.consist, rx/crtp_base.hpp:641, 680 *)
  Definition is_consistP (addr : Z) : prog bool :=
    if addr =? 0 then Done false else rd (fun r => addr =? aval (consist (r_addrs r))).

  (** _own_equal_cv_packets_count *)
  Definition countP : prog nat := rd (fun r => own_equal_cv_packets_count (r_cv r)).

  (** cvLong, rx/crtp_base.hpp:640-673. [off] is where the span starts. *)
  Definition cvLongP (addr : Z) (off : nat) : prog unit :=
    c <- is_consistP addr ;;
    if c then Done tt
    else
      countOwnP ;;;
      sm <- rd (fun r => service_mode (r_cv r)) ;;
      skip <- (if sm then n <- countP ;; Done (negb (n =? 2)%nat) else Done false) ;;
      if skip then Done tt
      else
        b0 <- byt off 0 ;; b1 <- byt off 1 ;;
        let cv_addr := Z.lor (Z.shiftl (Z.land b0 3) 8) b1 in
        let kk := Z.land (Z.shiftr b0 2) 3 in
        if kk =? 0 then Done tt
        else if kk =? 1 then
          b2 <- byt off 2 ;; cvVerifyP cv_addr b2
        else if kk =? 3 then
          n <- countP ;;
          if (n <? 2)%nat then Done tt
          else
            n <- countP ;;
            if (n =? 2)%nat then b2 <- byt off 2 ;; cvWriteP cv_addr b2
            else b2 <- byt off 2 ;; cvVerifyP cv_addr b2
        else
          b2 <- byt off 2 ;;
          let pos := Z.land b2 7 in
          let bit := Z.testbit b2 3 in
          if negb (Z.testbit b2 4) then cvVerifyBitP cv_addr bit pos
          else
            n <- countP ;;
            if (n =? 2)%nat then cvWriteBitP cv_addr bit pos else Done tt.

  (** cvShort, rx/crtp_base.hpp:679-715 *)
  Definition cvShortP (addr : Z) (off : nat) : prog unit :=
    c <- is_consistP addr ;;
    if c then Done tt
    else
      countOwnP ;;;
      b0 <- byt off 0 ;;
      let n := Z.land b0 0x0F in
      if n =? 2 then b1 <- byt off 1 ;; cvWriteP 22 b1
      else if n =? 3 then b1 <- byt off 1 ;; cvWriteP 23 b1
      else if n =? 4 then
        cnt <- countP ;;
        if negb (cnt =? 2)%nat then Done tt
        else
          b1 <- byt off 1 ;; cvWriteP 16 (u8 (Z.lor 0xC0 b1)) ;;;
          b2 <- byt off 2 ;; cvWriteP 17 b2 ;;;
          cvWriteBitP 28 true 5
      else if n =? 5 then
        cnt <- countP ;;
        if negb (cnt =? 2)%nat then Done tt
        else
          b1 <- byt off 1 ;; cvWriteP 30 b1 ;;;
          b2 <- byt off 2 ;; cvWriteP 31 b2
      else Done tt.

  (** registerMode, rx/crtp_base.hpp:803-827 *)
  Definition registerModeP (off : nat) : prog unit :=
    b0 <- byt off 0 ;;
    let w := Z.testbit b0 3 in
    let reg := Z.land b0 7 in
    let acc cv := (b1 <- byt off 1 ;; if w then cvWriteP cv b1 else cvVerifyP cv b1) in
    if reg <=? 3 then
      i <- rd (fun r => index_reg (r_cv r)) ;; acc (u32 (i * 4 - (4 - reg)))
    else if reg =? 4 then acc 28
    else if reg =? 5 then
      b1 <- byt off 1 ;;
      if w then wr (set_index_reg b1)
      else
        i <- rd (fun r => index_reg (r_cv r)) ;;
        if i =? b1 then say EServiceAck else Done tt
    else acc reg.

  (** ---------------------------------------------------------------------- *)
  (** Operations mode commands *)

  (** serviceMode(bool), rx/crtp_base.hpp:878-887 *)
  Definition serviceModeP (enter : bool) : prog unit :=
    say (EServiceModeHook enter) ;;; wr (set_service_mode enter).

  (** consistControl, rx/crtp_base.hpp:433-435 *)
  Definition consistControlP (off : nat) : prog unit :=
    b0 <- byt off 0 ;; b1 <- byt off 1 ;;
    cvWriteP 18 (u8 (Z.lor (Z.shiftl b0 7) b1)).

  (** directionSpeed, rx/crtp_base.hpp:852-857 *)
  Definition directionSpeedP (addr : Z) (dir : bool) (speed : Z) : prog unit :=
    a <- rd (fun r => aval (primary (r_addrs r))) ;;
    reversed <- (if addr =? a then rd (fun r => arev (primary (r_addrs r)))
                 else rd (fun r => arev (consist (r_addrs r)))) ;;
    say (EDirection addr (if reversed : bool then negb dir else dir)) ;;;
    say (ESpeed addr speed).

  (** case 0b0011'1111, rx/crtp_base.hpp:464-476. Reads of one byte that follow
      each other without a call in between are one read. *)
  Definition speed126P (addr : Z) (off : nat) : prog unit :=
    b1 <- byt off 1 ;;
    let dir := Z.testbit b1 7 in
    if Z.land b1 0x7F =? 0 then directionSpeedP addr dir Stop
    else if Z.land b1 0x7E =? 0 then say (ESpeed addr EStop)
    else directionSpeedP addr dir (scale_speed 126 (Z.land b1 0x7F - 1)).

  (** advancedOperations, rx/crtp_base.hpp:441-496 *)
  Definition advancedOperationsP (addr : Z) (off : nat) : prog unit :=
    b0 <- byt off 0 ;;
    if b0 =? 0x3C then
      n <- act (front_size off) ;;
      whenP (3 <? n)%nat
        (b <- byt off 2 ;; say (EFunction addr (Z.shiftl 0xFF 0) (u32 (Z.shiftl b 0)))) ;;;
      whenP (4 <? n)%nat
        (b <- byt off 3 ;; say (EFunction addr (Z.shiftl 0xFF 8) (u32 (Z.shiftl b 8)))) ;;;
      whenP (5 <? n)%nat
        (b <- byt off 4 ;; say (EFunction addr (Z.shiftl 0xFF 16) (u32 (Z.shiftl b 16)))) ;;;
      whenP (6 <? n)%nat
        (b <- byt off 5 ;; say (EFunction addr (Z.shiftl 0xFF 0) (u32 (Z.shiftl b 24)))) ;;;
      speed126P addr off
    else if b0 =? 0x3F then speed126P addr off
    else if b0 =? 0x3E then
      b1 <- byt off 1 ;;
      wr (set_man_flag (Z.testbit b1 7)) ;;;
      whenP (e_east_west E)
        (b1 <- byt off 1 ;;
         if Z.testbit b1 6 then say (EEastWest addr (Some true))
         else say (EEastWest addr (Some false)))
    else Done tt.

  (** speedAndDirection, rx/crtp_base.hpp:502-529 *)
  Definition speedAndDirectionP (addr : Z) (off : nat) : prog unit :=
    b0 <- byt off 0 ;;
    let dir := Z.testbit b0 5 in
    if negb (Z.land b0 0x0F =? 0) && (Z.land b0 0x0E =? 0) then say (ESpeed addr EStop)
    else
      let speed := if Z.land b0 0x0F =? 0 then Stop else Z.land b0 0x0F - 1 in
      f0 <- rd (fun r => f0_exception (r_conf r)) ;;
      if f0 : bool then
        b0 <- byt off 0 ;;
        say (EFunction addr 1 (if Z.testbit b0 4 then 1 else 0)) ;;;
        directionSpeedP addr dir (scale_speed 14 speed)
      else
        let speed := Z.shiftl speed 1 in
        b0 <- byt off 0 ;;
        let speed := if negb (speed =? 0) && negb (Z.testbit b0 4) then speed - 1 else speed in
        directionSpeedP addr dir (scale_speed 28 speed).

  (** functionGroup, rx/crtp_base.hpp:538-566 *)
  Definition functionGroupP (addr : Z) (off : nat) : prog unit :=
    b0 <- byt off 0 ;;
    let n := Z.land b0 0xF0 in
    if (n =? 0x80) || (n =? 0x90) then
      f0 <- rd (fun r => f0_exception (r_conf r)) ;;
      b0 <- byt off 0 ;;
      say (EFunction addr (if f0 : bool then 0x1E else 0x1F)
             (Z.lor (Z.shiftl (Z.land b0 0x0F) 1) (Z.shiftr (Z.land b0 0x10) 4)))
    else if n =? 0xB0 then
      b0 <- byt off 0 ;; say (EFunction addr 0x1E0 (Z.shiftl (Z.land b0 0x0F) 5))
    else if n =? 0xA0 then
      b0 <- byt off 0 ;; say (EFunction addr 0x1E00 (Z.shiftl (Z.land b0 0x0F) 9))
    else say (EFunction addr 0 0).

  (** tipOffSearch, rx/crtp_base.hpp:899-914. The datagram is assembled at *end()
      of the empty deque, which no handler reads before push_back(). *)
  Definition tipOffSearchP : prog unit :=
    b <- tos_testP ;;
    full <- (if b : bool then Done true
             else rd (fun r => negb (length (tos_deque (r_bidi r)) =? 0)%nat)) ;;
    if full : bool then Done tt
    else
      l <- rd (fun r => last_packet_tp (r_time r)) ;;
      t <- rd (fun r => tos_tp (r_time r)) ;;
      let sec := Z.quot (l - t) 1000000000 in
      if 30 <=? sec then Done tt
      else
        h <- rd (fun r => adrHigh r (primary (r_addrs r))) ;; hi <- local h ;;
        l <- rd (fun r => adrLow r (primary (r_addrs r))) ;; lo <- local l ;;
        tm <- local (rbind (make_datagram_id B12 14 (u32 sec)) encode_datagram) ;;
        wr (fun r => set_tos_deque (tos_deque (r_bidi r) ++ [hi ++ lo ++ tm]) r).

  (** binaryState, rx/crtp_base.hpp:837-845 *)
  Definition binaryStateP (xf : Z) (state : bool) : prog unit :=
    if xf =? 2 then (if negb state then tipOffSearchP else Done tt) else Done tt.

  (** featureExpansion, rx/crtp_base.hpp:575-633 *)
  Definition featureExpansionP (addr : Z) (off : nat) : prog unit :=
    b0 <- byt off 0 ;;
    if b0 =? 0xC0 then
      b2 <- byt off 2 ;; b1 <- byt off 1 ;;
      binaryStateP (Z.lor (Z.shiftl b2 7) (Z.land b1 0x7F)) (Z.testbit b1 7)
    else if b0 =? 0xDD then
      b1 <- byt off 1 ;; binaryStateP (Z.land b1 0x7F) (Z.testbit b1 7)
    else if b0 =? 0xDE then
      b1 <- byt off 1 ;; say (EFunction addr 0x1FE000 (u32 (Z.shiftl b1 13)))
    else if b0 =? 0xDF then
      b1 <- byt off 1 ;; say (EFunction addr 0x1FE00000 (u32 (Z.shiftl b1 21)))
    else Done tt.

  (** The switch of executeOperationsAddressed, rx/crtp_base.hpp:352-368 *)
  Definition instructP (a : Z) (off : nat) : prog bool :=
    i <- act (front_instruction off) ;;
    match i with
    | IDecoderControl =>
        if a =? 0 then b0 <- byt off 0 ;; (if b0 =? 0 then serviceModeP true else Done tt)
        else Done tt
    | IConsistControl => consistControlP off
    | IAdvancedOperations => advancedOperationsP a off
    | ISpeedDirection => speedAndDirectionP a off
    | IFunctionGroup => functionGroupP a off
    | IFeatureExpansion => featureExpansionP a off
    | ICvLong => cvLongP a off
    | ICvShort => cvShortP a off
    | IUnknownService | ILogon => Done tt
    end ;;; Done true.

  (** executeOperationsAddressed, rx/crtp_base.hpp:337-371 *)
  Definition executeOperationsAddressedP (addr : address) (off : nat) : prog bool :=
    if aval addr =? 0 then instructP 0 off
    else
      own <- rd (fun r => addr_eqb addr (primary (r_addrs r))) ;;
      own <- (if own : bool then Done true
              else rd (fun r => addr_eqb addr (consist (r_addrs r)))) ;;
      own <- (if own : bool then rd (fun r => aval (logon (r_addrs r)) =? 0)
              else Done false) ;;
      if own : bool then instructP (aval addr) off
      else
        l <- rd (fun r => addr_eqb addr (logon (r_addrs r))) ;;
        if l : bool then
          a <- rd (fun r => aval (primary (r_addrs r))) ;; instructP a off
        else Done false.

  (** executeOperations, rx/crtp_base.hpp:289-308 *)
  Definition executeOperationsP : prog bool :=
    a <- act front_address ;;
    match atyp a with
    | ATBroadcast | ATShort => executeOperationsAddressedP a 1
    | ATLong => executeOperationsAddressedP a 2
    | _ => Done false
    end.

  (** executeService, rx/crtp_base.hpp:313-324 *)
  Definition executeServiceP : prog bool :=
    p0 <- byt 0 0 ;;
    (if p0 =? 0 then Done tt
     else
       p0 <- byt 0 0 ;;
       if negb (Z.land p0 0xF0 =? 0x70) then serviceModeP false
       else
         n <- act (front_size 0) ;;
         if (n =? 3)%nat then registerModeP 0
         else
           n <- act (front_size 0) ;;
           if (n =? 4)%nat then cvLongP 0 0 else Done tt) ;;;
    Done true.

  (** adr, rx/crtp_base.hpp:1011-1032: the two datagrams are pushed one after the
      other *)
  Definition adrPushP (g : addrs -> address) : prog unit :=
    h <- rd (fun r => adrHigh r (g (r_addrs r))) ;;
    hi <- local h ;;
    wr (fun r => set_adr_deque (adr_deque (r_bidi r) ++ [hi]) r) ;;;
    l <- rd (fun r => adrLow r (g (r_addrs r))) ;;
    lo <- local l ;;
    wr (fun r => set_adr_deque (adr_deque (r_bidi r) ++ [lo]) r).
  Definition adrP : prog unit :=
    en <- rd (fun r => ch1_addr_enabled (r_conf r)) ;;
    skip <- (if negb en then Done true
             else rd (fun r => negb (length (adr_deque (r_bidi r)) =? 0)%nat)) ;;
    if skip : bool then Done tt
    else
      l <- rd (fun r => aval (logon (r_addrs r))) ;;
      if negb (l =? 0) then adrPushP logon
      else
        c <- rd (fun r => aval (consist (r_addrs r))) ;;
        if c =? 0 then adrPushP primary
        else
          c <- rd (fun r => aval (consist (r_addrs r))) ;;
          if (0 <? c) && (c <? 128) then adrPushP consist else Done tt.

  (** logonStore, rx/crtp_base.hpp:1150-1174 *)
  Definition logonStoreP : prog unit :=
    ls <- rd (fun r => logon_store (r_logon r)) ;;
    if negb ls then Done tt
    else
      wr (set_logon_store false) ;;;
      p <- rd (fun r => primary (r_addrs r)) ;;
      l <- rd (fun r => logon (r_addrs r)) ;;
      whenP (addr_eqb p l)
        (p <- rd (fun r => aval (primary (r_addrs r))) ;;
         act (writeCv E 16 (u8 (Z.lor 0xC0 (Z.shiftr p 8)))) ;;;
         p <- rd (fun r => aval (primary (r_addrs r))) ;;
         act (writeCv E 17 (u8 p)) ;;;
         act (writeCvBit E 28 true 5) ;;; Done tt) ;;;
      act (writeCv E 18 0) ;;;
      act (writeCv E 19 0) ;;;
      wr (fun r => set_cid_front (cid_back (r_logon r)) r) ;;;
      c <- rd (fun r => cid_back (r_logon r)) ;;
      act (writeCv E 65296 (u8 (Z.shiftr c 8))) ;;;
      c <- rd (fun r => cid_back (r_logon r)) ;;
      act (writeCv E 65297 (u8 c)) ;;;
      wr (fun r => set_sid_front (sid_back (r_logon r)) r) ;;;
      c <- rd (fun r => sid_back (r_logon r)) ;;
      act (writeCv E 65298 c) ;;;
      l <- rd (fun r => aval (logon (r_addrs r))) ;;
      act (writeCv E 65299 (u8 (Z.shiftr l 8))) ;;;
      l <- rd (fun r => aval (logon (r_addrs r))) ;;
      act (writeCv E 65300 (u8 l)) ;;;
      Done tt.

  (** updateQos, rx/crtp_base.hpp:1179-1184 *)
  Definition updateQosP : prog unit :=
    n <- rd (fun r => preamble_count (r_cnt r)) ;;
    if n <? 100 then Done tt
    else
      p <- rd (fun r => packet_count (r_cnt r)) ;;
      n <- rd (fun r => preamble_count (r_cnt r)) ;;
      wr (set_qos (u8 (100 - (p * 100) / n))) ;;;
      wr (set_preamble_count 0) ;;;
      wr (set_packet_count 0).

  (** updateTimepoints, rx/crtp_base.hpp:1189-1197 *)
  Definition updateTimepointsP : prog unit :=
    tp <- act (now E) ;;
    l <- rd (fun r => last_packet_tp (r_time r)) ;;
    whenP (2000000000 <=? tp - l)
      (wr (fun r => set_tos_backoff (backoff_now (tos_backoff (r_time r))) r) ;;;
       wr (set_tos_tp tp)) ;;;
    wr (set_last_packet_tp tp).

  (** What execute() does with a packet before pop_front,
      rx/crtp_base.hpp:276-280 *)
  Definition handleP : prog bool :=
    adrP ;;;
    logonStoreP ;;;
    updateQosP ;;;
    updateTimepointsP ;;;
    sm <- rd (fun r => service_mode (r_cv r)) ;;
    if sm : bool then executeServiceP else executeOperationsP.

  (** execute, rx/crtp_base.hpp:181, 274-283: the gate reads _packet_end and
      then empty(_deque) *)
  Definition executeP : prog bool :=
    pe <- rd (fun r => f_packet_end (r_fsm r)) ;;
    if pe : bool then Done false
    else
      e <- rd (fun r => (length (r_deque r) =? 0)%nat) ;;
      if e : bool then Done false
      else
        b <- handleP ;;
        act popFront ;;;
        Done b.

  (** ---------------------------------------------------------------------- *)
  (** Running a program *)

  (** Without interrupts *)
  Fixpoint flat {A} (p : prog A) : M A :=
    match p with
    | Done a => ret a
    | Act B m k => bind m (fun b => flat (k b))
    end.

  (** With interrupts: before the first step the operations of the first list of
      [w] run, before the second step those of the second list, and so on; none
      where [w] has ended. Besides its result the run returns the deque as every
      step found it, and the interrupts that were served. *)
  Fixpoint preempted {A} (p : prog A) (w : list (list op)) : M (A * list (list (list Z)) * list op) :=
    match p with
    | Done a => ret (a, [], [])
    | Act B m k =>
        bind (run E (hd [] w)) (fun _ =>
        bind get (fun r =>
        bind m (fun b =>
        bind (preempted (k b) (tl w)) (fun '(a, seen, served) =>
        ret (a, r_deque r :: seen, hd [] w ++ served)))))
    end.
End Preempt.
Arguments Done {I A} a.
Arguments Act {I A} B m k.
