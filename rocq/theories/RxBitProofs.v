(** Bit receiver: the state machine of Rx.receive refines the listener of SpecRx.v. *)
From Verif Require Import Prelude Address Instruction Checksum Datagram Speed Packets Backoff RxState Rx.
From Verif Require Import ZBits SpecCodec CodecProofs CodecProofs2 RxLogic SpecRx.

Lemma time2bit_half_bit : forall t, time2bit t = half_bit t.
Proof.
  intros t. unfold time2bit, half_bit, rx_bit1_min, rx_bit1_max, rx_bit0_min, rx_bit0_max_analog.
  destruct (t <? 52) eqn:E1; destruct (10000 <? t) eqn:E2; destruct (t <=? 64) eqn:E3;
    destruct (t <? 90) eqn:E4; cbn [orb];
    rewrite ?Z.ltb_lt, ?Z.leb_le, ?Z.ltb_ge, ?Z.leb_gt in *;
    destruct (52 <=? t) eqn:E5; destruct (90 <=? t) eqn:E6; destruct (t <=? 10000) eqn:E7;
    cbn [andb]; rewrite ?Z.ltb_lt, ?Z.leb_le, ?Z.ltb_ge, ?Z.leb_gt in *; try reflexivity; lia.
Qed.

(** ** Bits and bytes *)

Definition sep (p : list Z) : list bool := flat_map (fun b => msb_first b ++ [false]) p.

Lemma msb_first_byte_of : forall b, byte b -> byte_of (msb_first b) = b.
Proof.
  intros b Hb. apply Z.eqb_eq.
  apply (sweep8 (fun b => byte_of (msb_first b) =? b)); [vm_compute; reflexivity|exact Hb].
Qed.

Lemma byte_of_msb_first : forall bits, length bits = 8%nat -> msb_first (byte_of bits) = bits.
Proof.
  intros bits H.
  destruct bits as [|b7 [|b6 [|b5 [|b4 [|b3 [|b2 [|b1 [|b0 [|]]]]]]]]]; try discriminate.
  destruct b7, b6, b5, b4, b3, b2, b1, b0; vm_compute; reflexivity.
Qed.

Lemma byte_of_app : forall bits b, byte_of (bits ++ [b]) = 2 * byte_of bits + Z.b2z b.
Proof. intros bits b. unfold byte_of. rewrite fold_left_app. reflexivity. Qed.

Lemma byte_of_range : forall bits, 0 <= byte_of bits < 2 ^ Z.of_nat (length bits).
Proof.
  intros bits. induction bits as [|b bits IH] using rev_ind; [cbn; lia|].
  rewrite byte_of_app, app_length. cbn [length].
  rewrite Nat2Z.inj_add, Z.pow_add_r by lia. change (2 ^ Z.of_nat 1) with 2.
  destruct b; cbn [Z.b2z]; lia.
Qed.

Lemma byte_of_byte : forall bits, length bits = 8%nat -> byte (byte_of bits).
Proof. intros bits H. pose proof (byte_of_range bits) as R. rewrite H in R. exact R. Qed.

Lemma shift_in : forall bits b, (length bits < 8)%nat ->
  u8 (Z.lor (Z.shiftl (byte_of bits) 1) (Z.b2z b)) = byte_of (bits ++ [b]).
Proof.
  intros bits b H. rewrite byte_of_app. pose proof (byte_of_range bits) as R.
  assert (byte_of bits < 128).
  { assert (2 ^ Z.of_nat (length bits) <= 2 ^ 7) by (apply Z.pow_le_mono_r; lia). lia. }
  assert (Hs := sweep (fun a => (u8 (Z.lor (Z.shiftl a 1) 0) =? 2 * a + 0)
                       && (u8 (Z.lor (Z.shiftl a 1) 1) =? 2 * a + 1)) 0 128
                ltac:(vm_compute; reflexivity) (byte_of bits) ltac:(lia)).
  cbn beta in Hs. apply andb_prop in Hs. destruct Hs as [Ha Hc].
  rewrite Z.eqb_eq in Ha, Hc. destruct b; cbn [Z.b2z]; assumption.
Qed.

Lemma msb_first_cons : forall b, exists b7 b6 b5 b4 b3 b2 b1 b0,
    msb_first b = [b7; b6; b5; b4; b3; b2; b1; b0].
Proof. intros b. unfold msb_first. cbn [map]. repeat eexists. Qed.

Lemma bytes_of_cons : forall b rest, byte b ->
  bytes_of (msb_first b ++ false :: rest) = (b :: fst (bytes_of rest), snd (bytes_of rest)).
Proof.
  intros b rest Hb. pose proof (msb_first_byte_of b Hb) as Hm.
  destruct (msb_first_cons b) as (b7 & b6 & b5 & b4 & b3 & b2 & b1 & b0 & E).
  rewrite E in Hm |- *.
  change (bytes_of ([b7; b6; b5; b4; b3; b2; b1; b0] ++ false :: rest))
    with (let '(bs, stop) := bytes_of rest in (byte_of [b7; b6; b5; b4; b3; b2; b1; b0] :: bs, stop)).
  rewrite Hm.
  destruct (bytes_of rest); reflexivity.
Qed.

Lemma bytes_of_sep : forall p rest, Forall byte p ->
  bytes_of (sep p ++ rest) = (p ++ fst (bytes_of rest), snd (bytes_of rest)).
Proof.
  intros p rest Hp. induction Hp as [|b p Hb Hp IH].
  - change (bytes_of (sep [] ++ rest)) with (bytes_of rest). destruct (bytes_of rest); reflexivity.
  - change (sep (b :: p)) with ((msb_first b ++ [false]) ++ sep p).
    rewrite <- !app_assoc. cbn [List.app]. rewrite bytes_of_cons by exact Hb. rewrite IH. reflexivity.
Qed.

Lemma bytes_of_short : forall bits, (length bits < 8)%nat -> bytes_of bits = ([], false).
Proof.
  intros bits H.
  destruct bits as [|b7 [|b6 [|b5 [|b4 [|b3 [|b2 [|b1 [|b0 ?]]]]]]]]; try reflexivity.
  cbn [length] in H. lia.
Qed.

Lemma bytes_of_end : forall bits tail, length bits = 8%nat ->
  bytes_of (bits ++ tail) =
  match tail with
  | [] => ([byte_of bits], false)
  | true :: _ => ([byte_of bits], true)
  | false :: rest => (byte_of bits :: fst (bytes_of rest), snd (bytes_of rest))
  end.
Proof.
  intros bits tail H.
  destruct bits as [|b7 [|b6 [|b5 [|b4 [|b3 [|b2 [|b1 [|b0 [|]]]]]]]]]; try discriminate.
  destruct tail as [|[|] rest]; try reflexivity.
  change (bytes_of ([b7; b6; b5; b4; b3; b2; b1; b0] ++ false :: rest))
    with (let '(bs, stop) := bytes_of rest in (byte_of [b7; b6; b5; b4; b3; b2; b1; b0] :: bs, stop)).
  destruct (bytes_of rest); reflexivity.
Qed.

(** ** Half bits *)

Lemma ones_repeat : forall n hs, ones (repeat true n ++ hs) = (n + ones hs)%nat.
Proof. induction n; intros hs; [reflexivity|]. cbn [repeat List.app ones Nat.add]. rewrite IHn. reflexivity. Qed.
Lemma after_ones_repeat : forall n hs, after_ones (repeat true n ++ hs) = after_ones hs.
Proof. induction n; intros hs; [reflexivity|]. cbn [repeat List.app after_ones]. apply IHn. Qed.
Lemma repeat_snoc : forall A (x : A) n, repeat x n ++ [x] = repeat x (S n).
Proof. induction n; [reflexivity|]. cbn [repeat List.app]. rewrite IHn. reflexivity. Qed.

Lemma samples_snoc : forall body b,
  samples (body ++ [b]) = if Nat.odd (length body) then samples body ++ [b] else samples body.
Proof.
  intros body. assert (H : forall n body, (length body <= n)%nat -> forall b,
    samples (body ++ [b]) = if Nat.odd (length body) then samples body ++ [b] else samples body).
  { clear body. induction n as [|n IH]; intros body Hl b.
    - destruct body; [reflexivity|cbn in Hl; lia].
    - destruct body as [|x [|y body]]; [reflexivity|reflexivity|].
      cbn [List.app samples length]. rewrite IH by (cbn [length] in Hl; lia).
      change (Nat.odd (S (S (length body)))) with (Nat.odd (length body)).
      destruct (Nat.odd (length body)); reflexivity. }
  intros b. apply (H (length body) body (le_n _)).
Qed.

Lemma odd_length_snoc : forall (body : list bool) b,
  Nat.odd (length (body ++ [b])) = negb (Nat.odd (length body)).
Proof. intros body b. rewrite app_length. cbn [length]. rewrite Nat.add_1_r, Nat.odd_succ, <- Nat.negb_odd. reflexivity. Qed.

Lemma body_after : forall n x body, after_ones (repeat true n ++ false :: x :: body) = false :: x :: body.
Proof. intros n x body. rewrite after_ones_repeat. reflexivity. Qed.
Lemma body_ones : forall n r, ones (repeat true n ++ false :: r) = n.
Proof. intros n r. rewrite ones_repeat. cbn [ones]. lia. Qed.

(** ** The state machine as a function of its registers *)

Inductive act := ANone | AStart | AAccept | AReject | AOverflow.

Definition machine_bit (full : bool) (f : fsm) (bit : bool) : fsm * act :=
  if full then (reset_fsm f, ANone)
  else
    match f_state f with
    | Preamble =>
        if bit then (upd_f_bit_count (S (f_bit_count f)) f, ANone)
        else if (f_bit_count f <? 20)%nat then (reset_fsm f, ANone)
        else (upd_f_state Startbit f, ANone)
    | Startbit =>
        (Mk_fsm Data 0 (f_byte f) (f_checksum f) false [] (f_packet_end f), AStart)
    | Data =>
        let b := u8 (Z.lor (Z.shiftl (f_byte f) 1) (Z.b2z bit)) in
        if (S (f_bit_count f) <? 8)%nat
        then (Mk_fsm Data (S (f_bit_count f)) b (f_checksum f) (f_is_halfbit f) (f_packet f) (f_packet_end f), ANone)
        else if (length (f_packet f) <? 18)%nat
        then (Mk_fsm Endbit 0 0 (u8 (Z.lxor (f_checksum f) b)) (f_is_halfbit f) (f_packet f ++ [b]) (f_packet_end f), ANone)
        else (f, AOverflow)
    | Endbit =>
        if negb bit then (upd_f_state Data f, ANone)
        else if (f_checksum f =? 0) && (3 <=? length (f_packet f))%nat then (f, AAccept)
        else (reset_fsm (upd_f_packet [] f), AReject)
    end.

Definition machine (full : bool) (f : fsm) (t : Z) : fsm * act :=
  let f := upd_f_packet_end false f in
  match half_bit t with
  | None => (f, ANone)
  | Some bit =>
      match f_state f with
      | Preamble | Startbit => machine_bit full f bit
      | Data | Endbit =>
          let f := upd_f_is_halfbit (negb (f_is_halfbit f)) f in
          if f_is_halfbit f then (f, ANone) else machine_bit full f bit
      end
  end.

Section Receive.
  Context {I : Type} (E : Env I).

  (** What happens with a complete, valid packet *)
  Definition accept : M (I := I) unit := fun s =>
    bind (bind (modify (set_f_packet_end true)) (fun _ =>
    bind (modify (fun r => set_packet_count (packet_count (r_cnt r) + 1) r)) (fun _ =>
    bind (lift (decode_address (f_packet (r_fsm (rxs s))))) (fun a =>
    bind (modify (set_received a)) (fun _ =>
    bind (executeHandlerMode E) (fun handled : bool =>
    if handled then ret tt else
    bind get (fun r =>
    if (length (r_deque r) <? rx_deque_size)%nat
    then modify (set_r_deque (r_deque r ++ [f_packet (r_fsm r)]))
    else fail DequeFull))))))) (fun _ => reset) s.

  Definition with_fsm (f : fsm) (s : st I) : st I := Mk_st (set_r_fsm f (rxs s)) (app s) (pending s).
  Definition with_rx (g : rx -> rx) (s : st I) : st I := Mk_st (g (rxs s)) (app s) (pending s).

  Definition full (s : st I) : bool := (length (r_deque (rxs s)) =? 31)%nat.

  Lemma receive_packet_end_cases : forall s,
    receive_packet_end E s =
    if (f_checksum (r_fsm (rxs s)) =? 0) && (3 <=? length (f_packet (r_fsm (rxs s))))%nat
    then accept s
    else Ok (tt, with_rx (fun r => set_r_fsm (reset_fsm (upd_f_packet [] (r_fsm r)))
                                   (set_received addr0 r)) s, []).
  Proof.
    intros s. unfold receive_packet_end, accept.
    unfold bind at 1. cbn [get].
    destruct ((f_checksum (r_fsm (rxs s)) =? 0) && (3 <=? length (f_packet (r_fsm (rxs s))))%nat).
    2: { destruct s as [[] ? ?]. reflexivity. }
    destruct (bind _ _ s) as [[[[] s1] e1]|r]; reflexivity.
  Qed.

  Lemma receive_bit_machine : forall s bit,
    receive_bit E bit s =
    match machine_bit (full s) (r_fsm (rxs s)) bit with
    | (f, ANone) => Ok (tt, with_fsm f s, [])
    | (f, AStart) => Ok (tt, with_rx (fun r => set_preamble_count (preamble_count (r_cnt r) + 1) (set_r_fsm f r)) s, [])
    | (f, AReject) => Ok (tt, with_rx (fun r => set_received addr0 (set_r_fsm f r)) s, [])
    | (f, AOverflow) => UB PacketFull
    | (f, AAccept) => accept (with_fsm f s)
    end.
  Proof.
    intros [[f dq cnt ad cf lg bd cv tm] i pd] bit. unfold receive_bit, machine_bit, full, with_fsm, with_rx.
    unfold bind at 1. cbn [get rxs r_deque r_fsm]. change rx_deque_size with 31%nat.
    destruct (length dq =? 31)%nat; [reflexivity|].
    destruct f as [ph bc by_ ck hb pk pe]. cbn [f_state f_bit_count f_byte f_checksum f_is_halfbit f_packet f_packet_end].
    destruct ph.
    - destruct bit; [reflexivity|]. change (rx_min_preamble_bits * 2)%nat with 20%nat.
      destruct (bc <? 20)%nat; reflexivity.
    - reflexivity.
    - unfold bind at 1. cbn [modify].
      unfold bind at 1. cbn [modify].
      destruct (S bc <? 8)%nat; [reflexivity|]. change max_packet_size with 18%nat.
      destruct (length pk <? 18)%nat; reflexivity.
    - destruct bit; cbn [negb]; [|reflexivity].
      rewrite receive_packet_end_cases. cbn [rxs r_fsm f_checksum f_packet].
      destruct ((ck =? 0) && (3 <=? length pk)%nat); [|reflexivity].
      unfold set_r_fsm. cbn [rxs app pending r_deque r_cnt r_addrs r_conf r_logon r_bidi r_cv r_time].
      destruct (accept _) as [[[[] s1] e1]|r]; reflexivity.
  Qed.

  Lemma receive_machine : forall s t,
    receive E t s =
    match machine (full s) (r_fsm (rxs s)) t with
    | (f, ANone) => Ok (tt, with_fsm f s, [])
    | (f, AStart) => Ok (tt, with_rx (fun r => set_preamble_count (preamble_count (r_cnt r) + 1) (set_r_fsm f r)) s, [])
    | (f, AReject) => Ok (tt, with_rx (fun r => set_received addr0 (set_r_fsm f r)) s, [])
    | (f, AOverflow) => UB PacketFull
    | (f, AAccept) => accept (with_fsm f s)
    end.
  Proof.
    intros [[f dq cnt ad cf lg bd cv tm] i pd] t. unfold receive, machine.
    unfold bind at 1. cbn [modify rxs r_fsm app pending].
    rewrite time2bit_half_bit. destruct (half_bit t) as [bit|]; [|reflexivity].
    unfold bind at 1. cbn [get rxs]. destruct f as [ph bc by_ ck hb pk pe].
    assert (Hr : forall f, receive_bit E bit (Mk_st (Mk_rx f dq cnt ad cf lg bd cv tm) i pd) =
       match machine_bit (length dq =? 31)%nat f bit with
    | (f, ANone) => Ok (tt, Mk_st (Mk_rx f dq cnt ad cf lg bd cv tm) i pd, [])
    | (f', AStart) => Ok (tt, with_rx (fun r => set_preamble_count (preamble_count (r_cnt r) + 1) (set_r_fsm f' r)) (Mk_st (Mk_rx f dq cnt ad cf lg bd cv tm) i pd), [])
    | (f', AReject) => Ok (tt, with_rx (fun r => set_received addr0 (set_r_fsm f' r)) (Mk_st (Mk_rx f dq cnt ad cf lg bd cv tm) i pd), [])
    | (f, AOverflow) => UB PacketFull
    | (f, AAccept) => accept (Mk_st (Mk_rx f dq cnt ad cf lg bd cv tm) i pd)
    end).
    { intros f. rewrite receive_bit_machine. unfold full. cbn [rxs r_deque r_fsm].
      destruct (machine_bit (length dq =? 31)%nat f bit) as [f' []]; reflexivity. }
    destruct ph.
    - change (set_f_packet_end false (Mk_rx (Mk_fsm Preamble bc by_ ck hb pk pe) dq cnt ad cf lg bd cv tm))
        with (Mk_rx (Mk_fsm Preamble bc by_ ck hb pk false) dq cnt ad cf lg bd cv tm).
      cbn [r_fsm f_state]. rewrite Hr.
      unfold full, upd_f_packet_end. cbn [rxs r_deque f_state f_bit_count f_byte f_checksum f_is_halfbit f_packet f_packet_end].
      destruct (machine_bit _ _ _) as [f' []]; try reflexivity.
      unfold with_fsm, set_r_fsm.
      cbn [rxs app pending r_deque r_cnt r_addrs r_conf r_logon r_bidi r_cv r_time].
      destruct (accept _) as [[[[] s1] e1]|r]; reflexivity.
    - change (set_f_packet_end false (Mk_rx (Mk_fsm Startbit bc by_ ck hb pk pe) dq cnt ad cf lg bd cv tm))
        with (Mk_rx (Mk_fsm Startbit bc by_ ck hb pk false) dq cnt ad cf lg bd cv tm).
      cbn [r_fsm f_state]. rewrite Hr.
      unfold full, upd_f_packet_end. cbn [rxs r_deque f_state f_bit_count f_byte f_checksum f_is_halfbit f_packet f_packet_end].
      destruct (machine_bit _ _ _) as [f' []]; try reflexivity.
      unfold with_fsm, set_r_fsm.
      cbn [rxs app pending r_deque r_cnt r_addrs r_conf r_logon r_bidi r_cv r_time].
      destruct (accept _) as [[[[] s1] e1]|r]; reflexivity.
    - cbn [r_fsm set_f_packet_end set_r_fsm upd_f_packet_end f_state f_is_halfbit].
      unfold bind. cbn [modify rxs app pending]. destruct hb; cbn [negb].
      + match goal with |- context [receive_bit E bit ?s] =>
          change s with (Mk_st (Mk_rx (Mk_fsm Data bc by_ ck false pk false) dq cnt ad cf lg bd cv tm) i pd) end.
        rewrite Hr. unfold full, upd_f_packet_end, upd_f_is_halfbit.
        cbn [rxs r_deque f_state f_bit_count f_byte f_checksum f_is_halfbit f_packet f_packet_end].
        destruct (machine_bit _ _ _) as [f' []]; try reflexivity.
        unfold with_fsm, set_r_fsm.
        cbn [rxs app pending r_deque r_cnt r_addrs r_conf r_logon r_bidi r_cv r_time].
        destruct (accept _) as [[[[] s1] e1]|r]; reflexivity.
      + reflexivity.
    - cbn [r_fsm set_f_packet_end set_r_fsm upd_f_packet_end f_state f_is_halfbit].
      unfold bind. cbn [modify rxs app pending]. destruct hb; cbn [negb].
      + match goal with |- context [receive_bit E bit ?s] =>
          change s with (Mk_st (Mk_rx (Mk_fsm Endbit bc by_ ck false pk false) dq cnt ad cf lg bd cv tm) i pd) end.
        rewrite Hr. unfold full, upd_f_packet_end, upd_f_is_halfbit.
        cbn [rxs r_deque f_state f_bit_count f_byte f_checksum f_is_halfbit f_packet f_packet_end].
        destruct (machine_bit _ _ _) as [f' []]; try reflexivity.
        unfold with_fsm, set_r_fsm.
        cbn [rxs app pending r_deque r_cnt r_addrs r_conf r_logon r_bidi r_cv r_time].
        destruct (accept _) as [[[[] s1] e1]|r]; reflexivity.
      + reflexivity.
  Qed.
End Receive.

(** ** Registers against half bits *)

Definition Inv (h : list bool) (f : fsm) : Prop :=
  match f_state f with
  | Preamble => h = repeat true (f_bit_count f) /\ f_byte f = 0 /\ f_checksum f = 0
  | Startbit => f_byte f = 0 /\ f_checksum f = 0 /\
                exists n, (20 <= n)%nat /\ h = repeat true n ++ [false]
  | Data =>
      Forall byte (f_packet f) /\ (length (f_packet f) <= 18)%nat /\
      f_checksum f = xor_all (f_packet f) /\
      exists n x body bits, (20 <= n)%nat /\ h = repeat true n ++ false :: x :: body /\
        samples body = sep (f_packet f) ++ bits /\ f_is_halfbit f = Nat.odd (length body) /\
        length bits = f_bit_count f /\ (f_bit_count f < 8)%nat /\ f_byte f = byte_of bits
  | Endbit =>
      Forall byte (f_packet f) /\ (length (f_packet f) <= 18)%nat /\
      f_checksum f = xor_all (f_packet f) /\ f_bit_count f = 0%nat /\ f_byte f = 0 /\
      exists n x body q bits, (20 <= n)%nat /\ h = repeat true n ++ false :: x :: body /\
        f_packet f = q ++ [byte_of bits] /\ samples body = sep q ++ bits /\
        length bits = 8%nat /\ f_is_halfbit f = Nat.odd (length body)
  end.

Lemma sep_app : forall p q, sep (p ++ q) = sep p ++ sep q.
Proof. intros p q. unfold sep. apply flat_map_app. Qed.

Lemma xor_all_snoc : forall p b, xor_all (p ++ [b]) = Z.lxor (xor_all p) b.
Proof.
  intros p b. unfold xor_all. induction p as [|a p IH].
  - cbn. apply Z.lxor_0_r.
  - cbn [List.app fold_right]. rewrite IH. symmetry. apply Z.lxor_assoc.
Qed.

Lemma xor_all_byte : forall p, Forall byte p -> byte (xor_all p).
Proof.
  intros p H. induction H as [|b p Hb Hp IH]; [unfold byte; cbn; lia|].
  apply (lxor_byte b (xor_all p) Hb IH).
Qed.

Lemma reading_body : forall n x body, (20 <= n)%nat ->
  reading (repeat true n ++ false :: x :: body) =
  if snd (bytes_of (samples body)) then Packet (fst (bytes_of (samples body))) else Listening.
Proof.
  intros n x body Hn. unfold reading. rewrite body_after, body_ones.
  replace (n <? 20)%nat with false by (symmetry; apply Nat.ltb_ge; lia).
  destruct (bytes_of (samples body)); reflexivity.
Qed.

Lemma looked_at_body : forall n x body,
  looked_at (repeat true n ++ false :: x :: body) = Nat.even (length body).
Proof. intros n x body. unfold looked_at. rewrite body_after. reflexivity. Qed.

Lemma Inv_reset : forall f, Inv [] (reset_fsm f).
Proof. intros f. cbn. auto. Qed.

Lemma Inv_packet_end : forall h f v, Inv h f -> Inv h (upd_f_packet_end v f).
Proof. intros h [[] ? ? ? ? ? ?] v H; exact H. Qed.

(** One half bit *)
Lemma machine_sim : forall h f full b t,
  Inv h f -> half_bit t = Some b ->
  let hs := h ++ [b] in
  let f' := fst (machine full f t) in
  let a := snd (machine full f t) in
  if looked_at hs && full then a = ANone /\ Inv [] f' /\ f_packet_end f' = false
  else
    match reading hs with
    | Listening =>
        (a = AOverflow /\ length (frame_so_far hs) = 19%nat) \/
        ((a = ANone \/ a = AStart) /\ Inv hs f' /\ f_packet_end f' = false /\
         (length (frame_so_far hs) <= 18)%nat)
    | Lost => a = ANone /\ Inv [] f' /\ f_packet_end f' = false
    | Packet bs =>
        Forall byte bs /\ (1 <= length bs <= 18)%nat /\
        if valid_packet bs then a = AAccept /\ f_packet f' = bs
        else a = AReject /\ Inv [] f' /\ f_packet_end f' = false /\ f_packet f' = []
    end.
Proof.
  intros h f full b t HI Ht. cbv zeta. unfold machine. rewrite Ht.
  destruct f as [ph bc by_ ck hb pk pe]. unfold upd_f_packet_end, Inv in *.
  cbn [f_state f_bit_count f_byte f_checksum f_is_halfbit f_packet f_packet_end] in *.
  destruct ph.
  - (* Preamble *)
    destruct HI as (-> & -> & ->). unfold machine_bit.
    cbn [f_state f_bit_count f_byte f_checksum f_is_halfbit f_packet f_packet_end].
    destruct b.
    + rewrite repeat_snoc.
      assert (Hl : looked_at (repeat true (S bc)) = true).
      { unfold looked_at. rewrite <- (app_nil_r (repeat true (S bc))), after_ones_repeat. reflexivity. }
      rewrite Hl. destruct full; cbn [andb fst snd]; [cbn; auto|].
      unfold reading. rewrite <- (app_nil_r (repeat true (S bc))), after_ones_repeat.
      cbn [after_ones]. right. rewrite app_nil_r. unfold frame_so_far.
      rewrite <- (app_nil_r (repeat true (S bc))), after_ones_repeat.
      rewrite app_nil_r. cbn [after_ones length].
      cbn -[repeat]. refine (conj _ (conj (conj _ (conj _ _)) (conj _ _))); auto; lia.
    + assert (Hl : looked_at (repeat true bc ++ [false]) = true).
      { unfold looked_at. rewrite after_ones_repeat. reflexivity. }
      rewrite Hl. destruct full; cbn [andb fst snd]; [cbn; auto|].
      unfold reading, frame_so_far. rewrite after_ones_repeat, body_ones. cbn [after_ones].
      destruct (bc <? 20)%nat eqn:E; cbn [fst snd]; [cbn; auto|].
      right. rewrite Nat.ltb_ge in E. cbn -[repeat].
      refine (conj _ (conj (conj _ (conj _ (ex_intro _ bc (conj E eq_refl)))) (conj _ _))); auto; lia.
  - (* Startbit *)
    destruct HI as (-> & -> & n & Hn & ->). unfold machine_bit.
    cbn [f_state f_bit_count f_byte f_checksum f_is_halfbit f_packet f_packet_end].
    rewrite <- app_assoc. cbn [List.app].
    rewrite looked_at_body. cbn [length Nat.even andb].
    destruct full; cbn [fst snd]; [cbn; auto|].
    rewrite reading_body by exact Hn. cbn [samples].
    change (bytes_of []) with (@nil Z, false). cbn [fst snd].
    right. unfold frame_so_far. rewrite body_after. cbn [samples].
    change (bytes_of []) with (@nil Z, false). cbn [fst length].
    cbn -[repeat].
    refine (conj _ (conj (conj _ (conj _ (conj _ _))) (conj _ _))); auto; try lia.
    exists n, b, [], []. cbn -[repeat]. repeat split; auto; lia.
  - (* Data *)
    destruct HI as (Hp & Hl & -> & n & x & body & bits & Hn & -> & Hs & -> & Hb & Hc & ->).
    rewrite <- app_assoc. cbn [List.app].
    rewrite looked_at_body, reading_body by exact Hn. rewrite <- Nat.negb_odd, odd_length_snoc.
    unfold frame_so_far. rewrite body_after, samples_snoc.
    unfold upd_f_is_halfbit.
    cbn [f_state f_bit_count f_byte f_checksum f_is_halfbit f_packet f_packet_end].
    destruct (Nat.odd (length body)) eqn:Eo; cbn [negb andb].
    + (* second half *)
      rewrite Hs, <- app_assoc, bytes_of_sep by exact Hp.
      unfold machine_bit.
      cbn [f_state f_bit_count f_byte f_checksum f_is_halfbit f_packet f_packet_end].
      destruct full; [cbn; auto|].
      rewrite shift_in by lia.
      destruct (S bc <? 8)%nat eqn:E; cbn [fst snd].
      * rewrite Nat.ltb_lt in E.
        rewrite bytes_of_short by (rewrite app_length; cbn [length]; lia). cbn [fst snd].
        rewrite app_nil_r. right. cbn -[repeat bytes_of].
        refine (conj _ (conj (conj Hp (conj Hl (conj _ _))) (conj _ _))); auto.
        exists n, x, (body ++ [b]), (bits ++ [b]).
        rewrite samples_snoc, Eo, Hs, app_assoc, odd_length_snoc, Eo, app_length.
        cbn [negb length]. repeat split; auto; lia.
      * rewrite Nat.ltb_ge in E.
        assert (He : bytes_of (bits ++ [b]) = ([byte_of (bits ++ [b])], false)).
        { pose proof (bytes_of_end (bits ++ [b]) []) as He. rewrite app_nil_r in He. apply He.
          rewrite app_length; cbn [length]; lia. }
        rewrite He. cbn [fst snd]. rewrite app_length. cbn [length].
        destruct (length pk <? 18)%nat eqn:E2; cbn [fst snd].
        { rewrite Nat.ltb_lt in E2. right. cbn -[repeat bytes_of].
          assert (H8 : length (bits ++ [b]) = 8%nat) by (rewrite app_length; cbn [length]; lia).
          refine (conj _ (conj _ (conj _ _))); auto; [|lia].
          refine (conj _ (conj _ (conj _ (conj _ (conj _ _))))); auto.
          - apply Forall_app. split; [exact Hp|]. constructor; [apply byte_of_byte; exact H8|constructor].
          - rewrite app_length. cbn [length]. lia.
          - rewrite xor_all_snoc. unfold u8. rewrite Z.mod_small; [reflexivity|].
            apply (lxor_byte (xor_all pk)); [apply xor_all_byte; exact Hp|apply byte_of_byte; exact H8].
          - exists n, x, (body ++ [b]), pk, (bits ++ [b]).
            rewrite samples_snoc, Eo, Hs, app_assoc, odd_length_snoc, Eo.
            cbn [negb]. repeat split; auto. }
        { rewrite Nat.ltb_ge in E2. left. split; [reflexivity|lia]. }
    + (* first half *)
      rewrite Hs, bytes_of_sep by exact Hp.
      rewrite bytes_of_short by lia. cbn [fst snd]. rewrite app_nil_r.
      right. cbn -[repeat bytes_of].
      refine (conj _ (conj (conj Hp (conj Hl (conj _ _))) (conj _ _))); auto.
      exists n, x, (body ++ [b]), bits.
      rewrite samples_snoc, Eo, odd_length_snoc, Eo. repeat split; auto.
  - (* Endbit *)
    destruct HI as (Hp & Hl & -> & -> & -> & n & x & body & q & bits & Hn & -> & -> & Hs & Hb & ->).
    rewrite <- app_assoc. cbn [List.app].
    rewrite looked_at_body, reading_body by exact Hn. rewrite <- Nat.negb_odd, odd_length_snoc.
    unfold frame_so_far. rewrite body_after, samples_snoc.
    unfold upd_f_is_halfbit.
    cbn [f_state f_bit_count f_byte f_checksum f_is_halfbit f_packet f_packet_end].
    assert (Hq : Forall byte q) by (apply Forall_app in Hp; apply Hp).
    destruct (Nat.odd (length body)) eqn:Eo; cbn [negb andb].
    + rewrite Hs, <- app_assoc, bytes_of_sep by exact Hq.
      rewrite bytes_of_end by exact Hb. unfold machine_bit.
      cbn [f_state f_bit_count f_byte f_checksum f_is_halfbit f_packet f_packet_end].
      destruct full; [cbn; auto|].
      destruct b; cbn [negb fst snd].
      * split; [exact Hp|]. split; [rewrite app_length in *; cbn [length] in *; lia|].
        unfold valid_packet.
        destruct ((xor_all (q ++ [byte_of bits]) =? 0) && (3 <=? length (q ++ [byte_of bits]))%nat);
          cbn; auto.
      * change (bytes_of []) with (@nil Z, false). cbn [fst snd].
        right. cbn -[repeat bytes_of].
        refine (conj _ (conj (conj Hp (conj Hl (conj _ _))) (conj _ _))); auto.
        exists n, x, (body ++ [false]), [].
        rewrite samples_snoc, Eo, Hs, odd_length_snoc, Eo, sep_app.
        change (sep [byte_of bits]) with ((msb_first (byte_of bits) ++ [false]) ++ []).
        rewrite !app_nil_r, byte_of_msb_first by exact Hb. rewrite app_assoc.
        change (byte_of []) with 0. cbn [negb length]. repeat split; auto. lia.
    + rewrite Hs, bytes_of_sep by exact Hq.
      rewrite <- (app_nil_r bits), bytes_of_end by exact Hb. rewrite app_nil_r. cbn [fst snd].
      right. cbn -[repeat bytes_of].
      refine (conj _ (conj (conj Hp (conj Hl (conj _ (conj _ (conj _ _))))) (conj _ _))); auto.
      exists n, x, (body ++ [b]), q, bits.
      rewrite samples_snoc, Eo, odd_length_snoc, Eo. repeat split; auto.
Qed.

(** ** All public calls *)

Lemma decode_address_of : forall bs, Forall byte bs -> (2 <= length bs)%nat ->
  decode_address bs = Ok (address_of bs).
Proof.
  intros bs Hb Hl. destruct bs as [|b [|c r]]; try (cbn [length] in Hl; lia).
  inversion Hb as [|? ? Hb1 Hr]; subst. inversion Hr as [|? ? Hc1 _]; subst.
  unfold address_of. cbn [hd].
  destruct (Z_le_dec 192 b) as [H1|H1]; [destruct (Z_le_dec b 231) as [H2|H2]|].
  - rewrite decode_long by (auto; lia).
    replace (first_byte_class b) with ATLong; [reflexivity|].
    unfold first_byte_class.
    replace (b =? 0) with false by (symmetry; apply Z.eqb_neq; lia).
    replace (b <? 128) with false by (symmetry; apply Z.ltb_ge; lia).
    replace (b <? 192) with false by (symmetry; apply Z.ltb_ge; lia).
    replace (b <? 232) with true by (symmetry; apply Z.ltb_lt; lia). reflexivity.
  - rewrite decode_first by (auto; lia).
    assert (Hs := sweep8 (fun b => (b <? 232) || negb (atype_eqb (first_byte_class b) ATLong))
                   ltac:(vm_compute; reflexivity) b Hb1).
    cbn beta in Hs. replace (b <? 232) with false in Hs by (symmetry; apply Z.ltb_ge; lia).
    destruct (first_byte_class b); try reflexivity; discriminate.
  - rewrite decode_first by (auto; lia).
    assert (Hs := sweep8 (fun b => (191 <? b) || negb (atype_eqb (first_byte_class b) ATLong))
                   ltac:(vm_compute; reflexivity) b Hb1).
    cbn beta in Hs. replace (191 <? b) with false in Hs by (symmetry; apply Z.ltb_ge; lia).
    destruct (first_byte_class b); try reflexivity; discriminate.
Qed.

Lemma logon_type : forall bs, Forall byte bs -> (1 <= length bs)%nat ->
  atype_eqb (atyp (address_of bs)) ATLogon = is_logon bs.
Proof.
  intros bs Hb Hl. destruct bs as [|b r]; [cbn [length] in Hl; lia|].
  inversion Hb as [|? ? Hb1 _]; subst. unfold address_of, is_logon.
  assert (Hs := sweep8 (fun b => Bool.eqb (match first_byte_class b with ATLogon => true | _ => false end) (b =? 254))
                 ltac:(vm_compute; reflexivity) b Hb1).
  cbn beta in Hs. apply eqb_prop in Hs. rewrite <- Hs.
  destruct (first_byte_class b); reflexivity.
Qed.

Section Steps.
  Context {I : Type} (E : Env I).
  Implicit Types s : st I.

  Definition core (r : rx) := (r_fsm r, r_deque r, enabled_flag (r_cv r)).
  Lemma core_init : keeps core (init E). Proof. keeps_tac. Qed.
  Lemma core_handler : keeps core (executeHandlerMode E). Proof. keeps_tac. Qed.
  Lemma core_adr : keeps core (@adr I). Proof. keeps_tac. Qed.
  Lemma core_logonStore : keeps core (logonStore E). Proof. keeps_tac. Qed.
  Lemma core_updateQos : keeps core (@updateQos I). Proof. keeps_tac. Qed.
  Lemma core_updateTimepoints : keeps core (updateTimepoints E). Proof. keeps_tac. Qed.
  Lemma core_run_cb : forall c v, keeps core (run_cb E c v). Proof. intros. keeps_tac. Qed.
  Lemma core_executeCommand : keeps core (executeCommand E). Proof. keeps_tac. Qed.
  Lemma core_dyn_push : forall d x, keeps core (@dyn_push I d x). Proof. intros. keeps_tac. Qed.
  Lemma core_dyn_all : forall ds, keeps core (@dyn_all I ds).
  Proof.
    induction ds as [|a ds IH]; [apply keeps_ret|].
    apply keeps_bind; [apply core_dyn_push|intro; exact IH].
  Qed.
  Lemma core_datagram : forall ds, keeps core (@datagram I ds).
  Proof.
    intros ds. unfold datagram. apply keeps_bind; [apply keeps_get|intro].
    apply keeps_bind; [keeps_tac|intro].
    apply keeps_bind; [apply keeps_get|intro]. destruct (block_dyn _); [apply keeps_ret|apply core_dyn_all].
  Qed.
  Lemma core_biDi1 : keeps core (biDiChannel1 E). Proof. keeps_tac. Qed.
  Lemma core_biDi2 : keeps core (biDiChannel2 E). Proof. keeps_tac. Qed.

  (** Exact effect of accepting an ordinary packet *)
  Lemma accept_ordinary : forall s,
    let r := rxs s in
    let p := f_packet (r_fsm r) in
    Forall byte p -> (3 <= length p)%nat -> is_logon p = false -> (length (r_deque r) < 31)%nat ->
    accept E s =
    Ok (tt, Mk_st (Mk_rx (reset_fsm (upd_f_packet_end true (r_fsm r))) (r_deque r ++ [p])
              (upd_packet_count (packet_count (r_cnt r) + 1) (r_cnt r))
              (upd_received (address_of p) (r_addrs r)) (r_conf r) (r_logon r) (r_bidi r)
              (r_cv r) (r_time r)) (app s) (pending s), []).
  Proof.
    intros s r p Hb Hl Hn Hd. unfold accept. fold r p.
    rewrite decode_address_of by (auto; lia).
    assert (Ht := logon_type p Hb ltac:(lia)). rewrite Hn in Ht.
    destruct s as [[f dq cnt ad cf lg bd cv tm] i pd]. cbn [rxs r_deque] in *.
    destruct f as [ph bc by_ ck hb pk pe]. subst r p. cbn [rxs r_fsm f_packet r_deque] in *.
    unfold bind, modify, lift, executeHandlerMode, get, ret, reset.
    cbn -[address_of List.app Nat.ltb]. rewrite Ht. cbn -[address_of List.app Nat.ltb].
    apply Nat.ltb_lt in Hd. change rx_deque_size with 31%nat. rewrite Hd.
    cbn -[address_of List.app Nat.ltb]. reflexivity.
  Qed.

  (** Frame of accepting a logon packet *)
  Lemma accept_logon : forall s s' es,
    let r := rxs s in
    let p := f_packet (r_fsm r) in
    Forall byte p -> (3 <= length p)%nat -> is_logon p = true ->
    accept E s = Ok (tt, s', es) ->
    core (rxs s') = (reset_fsm (upd_f_packet_end true (r_fsm r)), r_deque r, enabled_flag (r_cv r)).
  Proof.
    intros s s' es r p Hb Hl Hn H. subst p r. unfold accept in H.
    rewrite decode_address_of in H by (auto; lia).
    assert (Ht := logon_type _ Hb ltac:(lia)). rewrite Hn in Ht.
    apply bind_inv in H. destruct H as ([] & s1 & e1 & e2 & H & Hr & ->).
    apply bind_inv in H. destruct H as ([] & s2 & e3 & e4 & Hm & H & ->).
    inversion Hm; subst s2 e3; clear Hm.
    apply bind_inv in H. destruct H as ([] & s3 & e5 & e6 & Hm & H & ->).
    inversion Hm; subst s3 e5; clear Hm.
    apply bind_inv in H. destruct H as (a & s4 & e7 & e8 & Hm & H & ->).
    inversion Hm; subst a s4 e7; clear Hm.
    apply bind_inv in H. destruct H as ([] & s5 & e9 & e10 & Hm & H & ->).
    inversion Hm; subst s5 e9; clear Hm.
    apply bind_inv in H. destruct H as (hd & s6 & e11 & e12 & Hm & H & ->).
    pose proof (core_handler _ _ _ _ Hm) as Hc.
    assert (hd = true).
    { unfold executeHandlerMode in Hm. apply bind_inv in Hm.
      destruct Hm as (r1 & s7 & e13 & e14 & Hg & Hm & ->). inversion Hg; subst r1 s7 e13; clear Hg.
      cbn [rxs] in Hm.
      match type of Hm with context [atype_eqb ?a ATLogon] =>
        change a with (atyp (address_of (f_packet (r_fsm (rxs s))))) in Hm end.
      rewrite Ht in Hm. cbn [negb] in Hm.
      apply bind_inv in Hm. destruct Hm as (ok & s8 & e15 & e16 & _ & Hm & ->).
      apply bind_inv in Hm. destruct Hm as (u & s9 & e17 & e18 & _ & Hm & ->).
      inversion Hm. reflexivity. }
    subst hd. inversion H; subst s1 e12; clear H.
    unfold reset, modify in Hr. inversion Hr; subst s' e2; clear Hr.
    unfold core in *. cbn [rxs] in *. injection Hc as H1 H2 H3.
    cbn [set_r_fsm r_fsm r_deque r_cv]. rewrite H1, H2, H3. reflexivity.
  Qed.

  (** The listener tells what the decoder hears *)
  Definition Rl (l : listener) (s : st I) : Prop :=
    Inv (l_heard l) (r_fsm (rxs s)) /\ r_deque (rxs s) = l_queue l /\
    f_packet_end (r_fsm (rxs s)) = l_fresh l /\ enabled_flag (r_cv (rxs s)) = l_on l /\
    (length (l_queue l) <= 31)%nat.

  Lemma Rl_core : forall l s s', core (rxs s') = core (rxs s) -> Rl l s -> Rl l s'.
  Proof.
    intros l s s' H (H1 & H2 & H3 & H4 & H5). unfold core in H. injection H as Ha Hb Hc.
    unfold Rl. rewrite Ha, Hb, Hc. auto.
  Qed.

  Lemma Rl0 : forall i, Rl listener0 (st0 i).
  Proof. intros i. unfold Rl. cbn [listener0 l_heard l_queue l_fresh l_on length]. repeat split; lia. Qed.

  Lemma receive_refines : forall l s t s' es,
    Rl l s -> receive E t s = Ok (tt, s', es) -> Rl (listen (OReceive t) l) s'.
  Proof.
    intros l s t s' es (HI & Hq & Hf & Ho & Hl) H. rewrite receive_machine in H.
    cbn [listen]. unfold hear.
    destruct (half_bit t) as [b|] eqn:Et.
    2: { unfold machine in H. rewrite Et in H. inversion H; subst. unfold Rl. cbn.
         repeat split; auto. }
    pose proof (machine_sim (l_heard l) (r_fsm (rxs s)) (full s) b t HI Et) as Hs. cbv zeta in Hs.
    replace (length (l_queue l) =? 31)%nat with (full s) by (unfold full; rewrite Hq; reflexivity).
    destruct (machine (full s) (r_fsm (rxs s)) t) as [f a] eqn:Em. cbn [fst snd] in Hs.
    destruct (looked_at (l_heard l ++ [b]) && full s) eqn:El.
    { destruct Hs as (-> & HI' & Hp). inversion H; subst. unfold Rl. cbn. auto. }
    destruct (reading (l_heard l ++ [b])) as [| |bs] eqn:Er.
    - destruct Hs as [[-> _]|[[->| ->] [HI' [Hp _]]]]; [discriminate| |];
        inversion H; subst; unfold Rl; cbn; auto.
    - destruct Hs as (-> & HI' & Hp). inversion H; subst. unfold Rl. cbn. auto.
    - destruct Hs as (Hby & Hlen & Hs). destruct (valid_packet bs) eqn:Ev.
      + destruct Hs as [-> Hpk].
        unfold valid_packet in Ev. apply andb_prop in Ev. destruct Ev as [_ Ev]. apply Nat.leb_le in Ev.
        assert (Hlook : looked_at (l_heard l ++ [b]) = true).
        { clear - Em HI Et. unfold machine in Em. rewrite Et in Em.
          destruct (r_fsm (rxs s)) as [ph bc by_ ck hb pk pe] eqn:Ef.
          unfold upd_f_packet_end, upd_f_is_halfbit, machine_bit, Inv in *.
          cbn [f_state f_bit_count f_byte f_checksum f_is_halfbit f_packet f_packet_end] in *.
          destruct ph.
          - destruct (full s), b, (bc <? 20)%nat; inversion Em.
          - destruct (full s); inversion Em.
          - destruct (negb hb), (full s), (S bc <? 8)%nat, (length pk <? 18)%nat; inversion Em.
          - destruct HI as (_ & _ & _ & _ & _ & n & x & body & q & bits & _ & -> & _ & _ & _ & ->).
            rewrite <- app_assoc. cbn [List.app]. rewrite looked_at_body, <- Nat.negb_odd, odd_length_snoc.
            destruct (Nat.odd (length body)); [reflexivity|discriminate]. }
        rewrite Hlook in El. cbn [andb] in El. unfold full in El. apply Nat.eqb_neq in El.
        destruct (is_logon bs) eqn:Elg.
        * assert (Hc := accept_logon (with_fsm f s) s' es).
          cbv zeta in Hc. unfold with_fsm in Hc. cbn [rxs r_fsm set_r_fsm r_deque r_cv] in Hc.
          rewrite Hpk in Hc. specialize (Hc Hby Ev Elg H). unfold core in Hc. injection Hc as H1 H2 H3.
          unfold Rl. rewrite H1, H2, H3. cbn. repeat split; auto.
        * rewrite accept_ordinary in H; unfold with_fsm; cbn [rxs r_fsm set_r_fsm r_deque r_cv];
            rewrite ?Hpk; auto; [|rewrite Hq in El |- *; lia].
          inversion H; subst s' es. unfold Rl, with_fsm. cbn -[List.app]. rewrite Hpk, Hq.
          repeat split; auto. rewrite app_length. cbn [length]. rewrite Hq in El. lia.
      + destruct Hs as (-> & HI' & Hp & _). inversion H; subst. unfold Rl. cbn. auto.
  Qed.

  Lemma execute_effect : forall s b s' es,
    execute E s = Ok (b, s', es) ->
    (f_packet_end (r_fsm (rxs s)) = true \/ r_deque (rxs s) = []) /\ b = false /\ s' = s /\ es = []
    \/ f_packet_end (r_fsm (rxs s)) = false /\ r_deque (rxs s) <> [] /\
       core (rxs s') = (r_fsm (rxs s), tl (r_deque (rxs s)), enabled_flag (r_cv (rxs s))).
  Proof.
    intros s b s' es H. unfold execute in H. apply bind_inv in H.
    destruct H as (r & s1 & e1 & e2 & Hg & H & ->). inversion Hg; subst r s1 e1; clear Hg.
    destruct (f_packet_end (r_fsm (rxs s)) || (length (r_deque (rxs s)) =? 0)%nat) eqn:E1.
    { left. inversion H; subst. repeat split; auto. apply orb_true_iff in E1. destruct E1 as [E1|E1]; [auto|].
      right. apply Nat.eqb_eq in E1. destruct (r_deque (rxs s')); [reflexivity|discriminate]. }
    right. apply orb_false_elim in E1. destruct E1 as [E1 E2].
    split; [exact E1|]. split; [intro Hn; rewrite Hn in E2; discriminate|].
    apply bind_inv in H. destruct H as (u1 & s1 & f1 & f2 & H1 & H & ->). apply core_adr in H1.
    apply bind_inv in H. destruct H as (u2 & s2 & f3 & f4 & H2 & H & ->). apply core_logonStore in H2.
    apply bind_inv in H. destruct H as (u3 & s3 & f5 & f6 & H3 & H & ->). apply core_updateQos in H3.
    apply bind_inv in H. destruct H as (u4 & s4 & f7 & f8 & H4 & H & ->). apply core_updateTimepoints in H4.
    apply bind_inv in H. destruct H as (u5 & s5 & f9 & f10 & H5 & H & ->). apply core_executeCommand in H5.
    apply bind_inv in H. destruct H as (u6 & s6 & f11 & f12 & H6 & H & ->). inversion H; subst; clear H.
    assert (Hc : core (rxs s5) = core (rxs s)) by congruence.
    unfold core in Hc. injection Hc as Ha Hb Hc.
    unfold popFront in H6. apply bind_inv in H6. destruct H6 as (r & s7 & f13 & f14 & Hg & H6 & Heq).
    inversion Hg; subst r s7 f13; clear Hg.
    destruct (r_deque (rxs s5)) as [|p q] eqn:Ed; [discriminate|].
    inversion H6; subst. unfold core. cbn [rxs set_r_deque r_fsm r_deque r_cv].
    rewrite Ha, Hc, <- Hb. reflexivity.
  Qed.

  Theorem step_refines : forall o l s b s' es,
    Rl l s -> step E o s = Ok (b, s', es) -> Rl (listen o l) s'.
  Proof.
    intros o l s b s' es HR H. destruct o; cbn [step] in H.
    - apply bind_inv in H. destruct H as (u & s1 & e1 & e2 & H1 & H2 & ->). inversion H2; subst.
      exact (Rl_core _ _ _ (core_init _ _ _ _ H1) HR).
    - apply bind_inv in H. destruct H as (u & s1 & e1 & e2 & H1 & H2 & ->). inversion H2; subst; clear H2.
      destruct HR as (H2 & H3 & H4 & H5 & H6).
      unfold enable in H1. apply bind_inv in H1. destruct H1 as (r & s2 & e2 & e3 & Hg & H1 & ->).
      inversion Hg; subst; clear Hg. unfold Rl. cbn [listen l_heard l_queue l_fresh l_on].
      destruct (enabled_flag (r_cv (rxs s2))) eqn:Ee; inversion H1; subst; cbn; auto.
    - apply bind_inv in H. destruct H as (u & s1 & e1 & e2 & H1 & H2 & ->). inversion H2; subst; clear H2.
      destruct HR as (H2 & H3 & H4 & H5 & H6).
      unfold disable in H1. apply bind_inv in H1. destruct H1 as (r & s2 & e2 & e3 & Hg & H1 & ->).
      inversion Hg; subst; clear Hg. unfold Rl. cbn [listen]. rewrite <- H5.
      destruct (enabled_flag (r_cv (rxs s2))) eqn:Ee; cbn [negb] in H1.
      + apply bind_inv in H1. destruct H1 as (u1 & s1 & e4 & e5 & Ha & Hb & ->).
        inversion Ha; subst. inversion Hb; subst. cbn. auto.
      + inversion H1; subst. rewrite Ee. repeat split; auto; congruence.
    - apply bind_inv in H. destruct H as ([] & s1 & e1 & e2 & H1 & H2 & ->). inversion H2; subst.
      exact (receive_refines _ _ _ _ _ HR H1).
    - apply execute_effect in H. cbn [listen].
      destruct HR as (H2 & H3 & H4 & H5 & H6).
      destruct H as [([Hp|Hd] & -> & -> & ->)|(Hp & Hd & Hc)].
      + rewrite <- H4, Hp. unfold Rl. repeat split; auto.
      + rewrite H3 in Hd. rewrite Hd. unfold Rl. destruct (l_fresh l) eqn:El.
        * rewrite El, Hd. cbn. repeat split; auto; try lia; congruence.
        * cbn. repeat split; auto; try lia; congruence.
      + rewrite <- H4, Hp. unfold core in Hc. injection Hc as Ha Hb Hc.
        unfold Rl. cbn [l_heard l_queue l_fresh l_on]. rewrite Ha, Hb, Hc, H3.
        repeat split; auto. destruct (l_queue l); cbn [tl length] in *; lia.
    - apply bind_inv in H. destruct H as (u & s1 & e1 & e2 & H1 & H2 & ->). inversion H2; subst.
      exact (Rl_core _ _ _ (core_datagram _ _ _ _ _ H1) HR).
    - apply bind_inv in H. destruct H as (u & s1 & e1 & e2 & H1 & H2 & ->). inversion H2; subst.
      exact (Rl_core _ _ _ (core_biDi1 _ _ _ _ H1) HR).
    - apply bind_inv in H. destruct H as (u & s1 & e1 & e2 & H1 & H2 & ->). inversion H2; subst.
      exact (Rl_core _ _ _ (core_biDi2 _ _ _ _ H1) HR).
    - destruct (nth_error (pending s) i) as [c|]; [|inversion H; subst; exact HR].
      apply bind_inv in H. destruct H as (u & s1 & e1 & e2 & H1 & H2 & ->). inversion H2; subst.
      exact (Rl_core _ _ _ (core_run_cb _ _ _ _ _ _ H1) HR).
  Qed.

  Theorem run_refines : forall os l s s' es,
    Rl l s -> run E os s = Ok (tt, s', es) -> Rl (listen_all os l) s'.
  Proof.
    induction os as [|o os IH]; intros l s s' es HR H.
    - inversion H; subst. exact HR.
    - cbn [run] in H. apply bind_inv in H. destruct H as (b & s1 & e1 & e2 & H1 & H2 & ->).
      exact (IH _ _ _ _ (step_refines _ _ _ _ _ _ HR H1) H2).
  Qed.
End Steps.
