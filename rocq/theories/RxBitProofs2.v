(** Bit receiver: feeding whole packets, resynchronisation, connection to the
    transmitter. *)
From Verif Require Import Prelude Address Instruction Checksum Datagram Speed Packets Backoff RxState Rx.
From Verif Require Import ZBits SpecCodec CodecProofs CodecProofs2 RxLogic SpecRx RxBitProofs.

(** [machine] on a half bit *)
Definition machine_hb (full : bool) (f : fsm) (bit : bool) : fsm * act :=
  let f := upd_f_packet_end false f in
  match f_state f with
  | Preamble | Startbit => machine_bit full f bit
  | Data | Endbit =>
      let f := upd_f_is_halfbit (negb (f_is_halfbit f)) f in
      if f_is_halfbit f then (f, ANone) else machine_bit full f bit
  end.

Lemma machine_some : forall full f t b, half_bit t = Some b -> machine full f t = machine_hb full f b.
Proof. intros full f t b H. unfold machine, machine_hb. rewrite H. reflexivity. Qed.

(** Several half bits during which nothing but registers change *)
Inductive silent (full : bool) : fsm -> list bool -> fsm -> Prop :=
| silent_nil : forall f, silent full f [] f
| silent_cons : forall f b f1 hs f2,
    machine_hb full f b = (f1, ANone) -> silent full f1 hs f2 -> silent full f (b :: hs) f2.

Lemma silent_app : forall full f hs1 f1 hs2 f2,
  silent full f hs1 f1 -> silent full f1 hs2 f2 -> silent full f (hs1 ++ hs2) f2.
Proof.
  intros full f hs1 f1 hs2 f2 H1 H2. induction H1 as [|f b f3 hs f4 Hm H1 IH]; [exact H2|].
  cbn [List.app]. econstructor; [exact Hm|exact (IH H2)].
Qed.

Section Feed.
  Context {I : Type} (E : Env I).
  Implicit Types s : st I.

  Lemma run_receive_cons : forall t os s u s1 e1,
    receive E t s = Ok (u, s1, e1) ->
    run E (OReceive t :: os) s =
    match run E os s1 with Ok (v, s2, e2) => Ok (v, s2, e1 ++ e2) | UB r => UB r end.
  Proof.
    intros t os s u s1 e1 H. cbn [run step]. unfold bind. rewrite H. cbn [ret].
    rewrite app_nil_r. reflexivity.
  Qed.

  Lemma run_silent : forall hs ts f s, map half_bit ts = map Some hs ->
    silent (full s) (r_fsm (rxs s)) hs f ->
    run E (map OReceive ts) s = Ok (tt, with_fsm f s, []).
  Proof.
    induction hs as [|b hs IH]; intros ts f s Hm Hs.
    - destruct ts; [|discriminate]. inversion Hs; subst. cbn [map run].
      unfold with_fsm. destruct s as [[] i p]. reflexivity.
    - destruct ts as [|t ts]; [discriminate|]. cbn [map] in Hm.
      inversion Hm as [[Ht Hts]]. inversion Hs as [|f0 b0 f1 hs0 f2 Hb Hr]; subst.
      cbn [map]. rewrite run_receive_cons with (u := tt) (s1 := with_fsm f1 s) (e1 := []).
      2: { rewrite receive_machine, (machine_some _ _ _ _ Ht), Hb. reflexivity. }
      rewrite (IH ts f (with_fsm f1 s)); [|exact Hts|exact Hr].
      destruct s as [[] i p]. reflexivity.
  Qed.
End Feed.

(** ** Pieces of a packet *)

Lemma silent_ones : forall k m f, f_state f = Preamble -> f_bit_count f = m -> (1 <= k)%nat ->
  silent false f (repeat true k) (upd_f_bit_count (m + k) (upd_f_packet_end false f)).
Proof.
  induction k as [|k IH]; intros m f Hs Hc Hk; [lia|].
  destruct f as [ph bc by_ ck hb pk pe]. cbn in Hs, Hc. subst ph bc.
  cbn [repeat]. econstructor.
  - unfold machine_hb, machine_bit. cbn. reflexivity.
  - destruct k as [|k].
    + cbn. replace (m + 1)%nat with (S m) by lia. constructor.
    + unfold upd_f_bit_count, upd_f_packet_end in *. cbn.
      specialize (IH (S m) (Mk_fsm Preamble (S m) by_ ck hb pk false) eq_refl eq_refl ltac:(lia)).
      cbn in IH. replace (m + S (S k))%nat with (S m + S k)%nat by lia. exact IH.
Qed.

Lemma silent_bit : forall b bc by_ ck pk, (S bc < 8)%nat ->
  silent false (Mk_fsm Data bc by_ ck false pk false) [b; b]
    (Mk_fsm Data (S bc) (u8 (Z.lor (Z.shiftl by_ 1) (Z.b2z b))) ck false pk false).
Proof.
  intros b bc by_ ck pk H. econstructor; [reflexivity|]. econstructor; [|constructor].
  unfold machine_hb, machine_bit. cbn -[Nat.ltb u8 Z.lor Z.shiftl].
  apply Nat.ltb_lt in H. rewrite H. reflexivity.
Qed.

Lemma silent_last_bit : forall b by_ ck pk, (length pk < 18)%nat ->
  silent false (Mk_fsm Data 7 by_ ck false pk false) [b; b]
    (Mk_fsm Endbit 0 0 (u8 (Z.lxor ck (u8 (Z.lor (Z.shiftl by_ 1) (Z.b2z b))))) false
            (pk ++ [u8 (Z.lor (Z.shiftl by_ 1) (Z.b2z b))]) false).
Proof.
  intros b by_ ck pk H. econstructor; [reflexivity|]. econstructor; [|constructor].
  unfold machine_hb, machine_bit. cbn -[Nat.ltb u8 Z.lor Z.shiftl].
  apply Nat.ltb_lt in H. rewrite H. reflexivity.
Qed.

Definition doubled (bits : list bool) : list bool := flat_map (fun b => [b; b]) bits.

Lemma doubled_app : forall a b, doubled (a ++ b) = doubled a ++ doubled b.
Proof. intros a b. unfold doubled. apply flat_map_app. Qed.

Lemma silent_bits : forall bits pre ck pk, (length pre + length bits < 8)%nat ->
  silent false (Mk_fsm Data (length pre) (byte_of pre) ck false pk false) (doubled bits)
    (Mk_fsm Data (length pre + length bits) (byte_of (pre ++ bits)) ck false pk false).
Proof.
  induction bits as [|b bits IH]; intros pre ck pk H.
  - rewrite app_nil_r, Nat.add_0_r. constructor.
  - cbn [length] in H. change (doubled (b :: bits)) with ([b; b] ++ doubled bits).
    eapply silent_app; [apply silent_bit; lia|].
    rewrite shift_in by lia.
    specialize (IH (pre ++ [b]) ck pk). rewrite app_length in IH. cbn [length] in IH.
    replace (length pre + 1)%nat with (S (length pre)) in IH by lia.
    rewrite <- app_assoc in IH. cbn [List.app] in IH. cbn [length].
    replace (length pre + S (length bits))%nat with (S (length pre) + length bits)%nat by lia.
    apply IH. lia.
Qed.

Lemma silent_byte : forall b ck pk, byte b -> byte ck -> (length pk < 18)%nat ->
  silent false (Mk_fsm Data 0 0 ck false pk false) (doubled (msb_first b))
    (Mk_fsm Endbit 0 0 (Z.lxor ck b) false (pk ++ [b]) false).
Proof.
  intros b ck pk Hb Hk Hl. pose proof (msb_first_byte_of b Hb) as Hm.
  destruct (msb_first_cons b) as (b7 & b6 & b5 & b4 & b3 & b2 & b1 & b0 & E). rewrite E in Hm |- *.
  change [b7; b6; b5; b4; b3; b2; b1; b0] with ([b7; b6; b5; b4; b3; b2; b1] ++ [b0]) in Hm |- *.
  rewrite doubled_app. eapply silent_app.
  - apply (silent_bits [b7; b6; b5; b4; b3; b2; b1] [] ck pk). cbn [length]. lia.
  - cbn [length List.app Nat.add].
    pose proof (silent_last_bit b0 (byte_of [b7; b6; b5; b4; b3; b2; b1]) ck pk Hl) as H.
    rewrite shift_in, Hm in H by (cbn [length]; lia).
    replace (u8 (Z.lxor ck b)) with (Z.lxor ck b) in H; [exact H|].
    symmetry. unfold u8. apply Z.mod_small. apply (lxor_byte ck b Hk Hb).
Qed.

Lemma silent_zero_end : forall ck pk,
  silent false (Mk_fsm Endbit 0 0 ck false pk false) [false; false] (Mk_fsm Data 0 0 ck false pk false).
Proof. intros ck pk. econstructor; [reflexivity|]. econstructor; [reflexivity|constructor]. Qed.

(** Bytes after the first one *)
Lemma silent_bytes : forall bs ck pk, Forall byte bs -> byte ck -> (length pk + length bs <= 18)%nat ->
  silent false (Mk_fsm Endbit 0 0 ck false pk false) (doubled (flat_map (fun b => false :: msb_first b) bs))
    (Mk_fsm Endbit 0 0 (Z.lxor ck (xor_all bs)) false (pk ++ bs) false).
Proof.
  induction bs as [|b bs IH]; intros ck pk Hb Hk Hl.
  - cbn [flat_map doubled]. change (xor_all []) with 0. rewrite Z.lxor_0_r, app_nil_r. constructor.
  - inversion Hb as [|? ? Hb1 Hb2]; subst. cbn [length] in Hl.
    change (doubled (flat_map (fun b => false :: msb_first b) (b :: bs)))
      with ([false; false] ++ doubled (msb_first b ++ flat_map (fun b => false :: msb_first b) bs)).
    rewrite doubled_app. eapply silent_app; [apply silent_zero_end|].
    eapply silent_app; [apply silent_byte; auto; lia|].
    change (xor_all (b :: bs)) with (Z.lxor b (xor_all bs)). rewrite <- Z.lxor_assoc.
    replace (pk ++ b :: bs) with ((pk ++ [b]) ++ bs) by (rewrite <- app_assoc; reflexivity).
    apply IH; [exact Hb2|apply (lxor_byte ck b Hk Hb1)|rewrite app_length; cbn [length]; lia].
Qed.

Section Packet.
  Context {I : Type} (E : Env I).
  Implicit Types s : st I.

  Lemma map_Some_app_inv : forall (hs1 hs2 : list bool) ts,
    map half_bit ts = map Some (hs1 ++ hs2) ->
    exists ts1 ts2, ts = ts1 ++ ts2 /\ map half_bit ts1 = map Some hs1 /\ map half_bit ts2 = map Some hs2.
  Proof.
    induction hs1 as [|h hs1 IH]; intros hs2 ts H.
    - exists [], ts. auto.
    - destruct ts as [|t ts]; [discriminate|]. cbn [List.app map] in H. inversion H as [[H1 H2]].
      destruct (IH _ _ H2) as (ts1 & ts2 & -> & H3 & H4).
      exists (t :: ts1), ts2. cbn [List.app map]. rewrite H1, H3. auto.
  Qed.

  Lemma run_ops_app : forall os1 os2 s s1 e1,
    run E os1 s = Ok (tt, s1, e1) ->
    run E (os1 ++ os2) s =
    match run E os2 s1 with Ok (v, s2, e2) => Ok (v, s2, e1 ++ e2) | UB r => UB r end.
  Proof.
    induction os1 as [|o os1 IH]; intros os2 s s1 e1 H.
    - inversion H; subst. cbn [List.app]. destruct (run E os2 s1) as [[[] ?]|]; reflexivity.
    - cbn [run] in H. apply bind_inv in H. destruct H as (b & s2 & e2 & e3 & H1 & H2 & ->).
      change ((o :: os1) ++ os2) with (o :: (os1 ++ os2)).
      change (run E (o :: os1 ++ os2) s) with (bind (step E o) (fun _ => run E (os1 ++ os2)) s).
      unfold bind. rewrite H1, (IH _ _ _ _ H2).
      destruct (run E os2 s1) as [[[v s3] e4]|r]; [rewrite app_assoc|]; reflexivity.
  Qed.

  (** Start bit: one zero after enough ones, one more half bit *)
  Lemma run_start : forall t1 t2 bc hb pk pe x s,
    r_fsm (rxs s) = Mk_fsm Preamble bc 0 0 hb pk pe -> (20 <= bc)%nat ->
    (length (r_deque (rxs s)) < 31)%nat -> half_bit t1 = Some false -> half_bit t2 = Some x ->
    run E (map OReceive [t1; t2]) s =
    Ok (tt, with_rx (fun r => set_preamble_count (preamble_count (r_cnt r) + 1)
                    (set_r_fsm (Mk_fsm Data 0 0 0 false [] false) r)) s, []).
  Proof.
    intros t1 t2 bc hb pk pe x s Hf Hc Hd H1 H2. cbn [map].
    assert (Hfull : full s = false) by (unfold full; apply Nat.eqb_neq; lia).
    rewrite run_receive_cons with (u := tt) (s1 := with_fsm (Mk_fsm Startbit bc 0 0 hb pk false) s) (e1 := []).
    2: { rewrite receive_machine, (machine_some _ _ _ _ H1), Hf, Hfull. unfold machine_hb, machine_bit.
         cbn -[Nat.ltb]. replace (bc <? 20)%nat with false by (symmetry; apply Nat.ltb_ge; exact Hc). reflexivity. }
    rewrite run_receive_cons with (u := tt) (s1 := with_rx (fun r => set_preamble_count (preamble_count (r_cnt r) + 1)
                    (set_r_fsm (Mk_fsm Data 0 0 0 false [] false) r)) s) (e1 := []).
    2: { rewrite receive_machine, (machine_some _ _ _ _ H2).
         replace (full (with_fsm (Mk_fsm Startbit bc 0 0 hb pk false) s)) with false by (symmetry; exact Hfull).
         unfold machine_hb, machine_bit. destruct s as [[] i p]. reflexivity. }
    reflexivity.
  Qed.

  (** After the start bit *)
  Definition in_packet (s : st I) : Prop :=
    r_fsm (rxs s) = Mk_fsm Data 0 0 0 false [] false /\ (length (r_deque (rxs s)) < 31)%nat.

  Lemma run_body : forall bs ts s, packet_ok bs -> in_packet s ->
    map half_bit ts = map Some (doubled (frame_bits bs)) ->
    run E (map OReceive ts) s =
    Ok (tt, with_rx (fun r => Mk_rx (Mk_fsm Preamble 0 0 0 false bs true) (r_deque r ++ [bs])
               (upd_packet_count (packet_count (r_cnt r) + 1) (r_cnt r))
               (upd_received (address_of bs) (r_addrs r)) (r_conf r) (r_logon r) (r_bidi r)
               (r_cv r) (r_time r)) s, []).
  Proof.
    intros bs ts s (Hby & Hlen & Hx & Hlg) (Hf & Hd) Hm.
    destruct bs as [|b bs]; [cbn [length] in Hlen; lia|].
    inversion Hby as [|? ? Hb1 Hb2]; subst.
    unfold frame_bits in Hm. cbn [flat_map List.app tl] in Hm.
    rewrite !doubled_app in Hm.
    rewrite <- app_assoc in Hm.
    apply map_Some_app_inv in Hm. destruct Hm as (t1 & tr & -> & Hm1 & Hm).
    apply map_Some_app_inv in Hm. destruct Hm as (t2 & t3 & -> & Hm2 & Hm3).
    assert (Hfull : full s = false) by (unfold full; apply Nat.eqb_neq; lia).
    rewrite !map_app.
    rewrite (run_ops_app (map OReceive t1) _ s (with_fsm (Mk_fsm Endbit 0 0 (Z.lxor 0 b) false ([] ++ [b]) false) s) []).
    2: { apply (run_silent E (doubled (msb_first b))); [exact Hm1|]. rewrite Hfull, Hf.
         apply silent_byte; [exact Hb1|unfold byte; lia|cbn [length]; lia]. }
    rewrite (run_ops_app (map OReceive t2) _ _
      (with_fsm (Mk_fsm Endbit 0 0 (Z.lxor (Z.lxor 0 b) (xor_all bs)) false (([] ++ [b]) ++ bs) false) s) []).
    2: { rewrite (run_silent E (doubled (flat_map (fun b => false :: msb_first b) bs)) t2
           (Mk_fsm Endbit 0 0 (Z.lxor (Z.lxor 0 b) (xor_all bs)) false (([] ++ [b]) ++ bs) false));
           [destruct s as [[] i p]; reflexivity|exact Hm2|].
         change (full (with_fsm (Mk_fsm Endbit 0 0 (Z.lxor 0 b) false ([] ++ [b]) false) s)) with (full s).
         rewrite Hfull. apply silent_bytes; [exact Hb2|rewrite Z.lxor_0_l; exact Hb1|].
         cbn [List.app length] in *. lia. }
    rewrite Z.lxor_0_l. change (Z.lxor b (xor_all bs)) with (xor_all (b :: bs)). rewrite Hx.
    change (([] ++ [b]) ++ bs) with (b :: bs).
    (* end bit *)
    destruct t3 as [|ta [|tb [|]]]; try discriminate. cbn in Hm3.
    assert (Ha : half_bit ta = Some true) by congruence.
    assert (Hb : half_bit tb = Some true) by congruence.
    cbn [map].
    rewrite run_receive_cons with (u := tt) (s1 := with_fsm (Mk_fsm Endbit 0 0 0 true (b :: bs) false) s) (e1 := []).
    2: { rewrite receive_machine, (machine_some _ _ _ _ Ha). destruct s as [[] i p]. reflexivity. }
    rewrite run_receive_cons with (u := tt) (s1 := with_rx (fun r => Mk_rx (Mk_fsm Preamble 0 0 0 false (b :: bs) true) (r_deque r ++ [b :: bs])
               (upd_packet_count (packet_count (r_cnt r) + 1) (r_cnt r))
               (upd_received (address_of (b :: bs)) (r_addrs r)) (r_conf r) (r_logon r) (r_bidi r)
               (r_cv r) (r_time r)) s) (e1 := []); [reflexivity|].
    rewrite receive_machine, (machine_some _ _ _ _ Hb).
    change (full (with_fsm (Mk_fsm Endbit 0 0 0 true (b :: bs) false) s)) with (full s). rewrite Hfull.
    assert (Hmb : machine_hb false (r_fsm (rxs (with_fsm (Mk_fsm Endbit 0 0 0 true (b :: bs) false) s))) true
            = (Mk_fsm Endbit 0 0 0 false (b :: bs) false, AAccept)).
    { unfold machine_hb, machine_bit. cbn -[Nat.leb length].
      replace (3 <=? length (b :: bs))%nat with true by (symmetry; apply Nat.leb_le; lia). reflexivity. }
    rewrite Hmb. rewrite accept_ordinary; [destruct s as [[] i p]; reflexivity| | | |];
      unfold with_fsm; cbn [rxs r_fsm set_r_fsm f_packet r_deque]; auto; lia.
  Qed.

  (** A whole packet from the preamble on *)
  Lemma run_packet : forall bs ts n m hb pk pe s, packet_ok bs ->
    r_fsm (rxs s) = Mk_fsm Preamble m 0 0 hb pk pe -> (20 <= m + 2 * n)%nat -> (1 <= n)%nat ->
    (length (r_deque (rxs s)) < 31)%nat -> plays ts n bs ->
    run E (map OReceive ts) s =
    Ok (tt, with_rx (fun r => Mk_rx (Mk_fsm Preamble 0 0 0 false bs true) (r_deque r ++ [bs])
               (Mk_cnts (packet_count (r_cnt r) + 1) (preamble_count (r_cnt r) + 1) (qos (r_cnt r)))
               (upd_received (address_of bs) (r_addrs r)) (r_conf r) (r_logon r) (r_bidi r)
               (r_cv r) (r_time r)) s, []).
  Proof.
    intros bs ts n m hb pk pe s Hok Hf Hn Hn1 Hd Hp. unfold plays, track_bits in Hp.
    assert (Hfull : full s = false) by (unfold full; apply Nat.eqb_neq; lia).
    assert (Hbits : flat_map (fun b => [b; b]) (repeat true n ++ flat_map (fun b => false :: msb_first b) bs ++ [true])
       = repeat true (2 * n) ++ [false; false] ++ doubled (frame_bits bs)).
    { rewrite flat_map_app. f_equal.
      - clear. induction n; [reflexivity|]. cbn [repeat flat_map List.app]. rewrite IHn.
        replace (2 * S n)%nat with (S (S (2 * n))) by lia. reflexivity.
      - destruct Hok as (_ & Hl & _). destruct bs; [cbn [length] in Hl; lia|]. reflexivity. }
    rewrite Hbits in Hp. clear Hbits.
    apply map_Some_app_inv in Hp. destruct Hp as (t1 & tr & -> & Hp1 & Hp).
    apply map_Some_app_inv in Hp. destruct Hp as (t2 & t3 & -> & Hp2 & Hp3).
    rewrite !map_app.
    rewrite (run_ops_app (map OReceive t1) _ s (with_fsm (Mk_fsm Preamble (m + 2 * n) 0 0 hb pk false) s) []).
    2: { apply (run_silent E (repeat true (2 * n))); [exact Hp1|]. rewrite Hfull, Hf.
         apply (silent_ones (2 * n) m); auto; lia. }
    destruct t2 as [|ta [|tb [|]]]; try discriminate. cbn in Hp2.
    assert (Ha : half_bit ta = Some false) by congruence.
    assert (Hb : half_bit tb = Some false) by congruence.
    rewrite (run_ops_app (map OReceive [ta; tb]) _ _ (with_rx (fun r => set_preamble_count (preamble_count (r_cnt r) + 1)
                    (set_r_fsm (Mk_fsm Data 0 0 0 false [] false) r)) s) []).
    2: { rewrite (run_start ta tb (m + 2 * n) hb pk false false); auto. }
    rewrite (run_body bs t3); [reflexivity|exact Hok|split; [reflexivity|exact Hd]|exact Hp3].
  Qed.
End Packet.

(** ** Resynchronisation *)

Section Resync.
  Context {I : Type} (E : Env I).
  Implicit Types s : st I.

  (** One half bits until the frame being received is over *)
  Definition togo (f : fsm) : nat :=
    match f_state f with
    | Preamble => 0
    | Startbit => 19
    | Data => 2 * (8 - f_bit_count f) + 2 - (if f_is_halfbit f then 1 else 0)
    | Endbit => 2 - (if f_is_halfbit f then 1 else 0)
    end.

  (** The frame being received cannot overflow and is no logon packet *)
  Definition harmless (f : fsm) : Prop :=
    match f_state f with
    | Preamble | Startbit => True
    | Data => (length (f_packet f) < 18)%nat /\ (is_logon (f_packet f) = false)
    | Endbit => is_logon (f_packet f) = false \/ (length (f_packet f) <= 1)%nat
    end.

  Lemma receive_one : forall l s t,
    Rl l s -> half_bit t = Some true -> (length (r_deque (rxs s)) < 31)%nat ->
    harmless (r_fsm (rxs s)) ->
    exists s' ex, receive E t s = Ok (tt, s', []) /\ r_deque (rxs s') = r_deque (rxs s) ++ ex /\
      harmless (r_fsm (rxs s')) /\
      match f_state (r_fsm (rxs s)) with
      | Preamble => ex = [] /\ f_state (r_fsm (rxs s')) = Preamble /\
                    f_bit_count (r_fsm (rxs s')) = S (f_bit_count (r_fsm (rxs s)))
      | _ => (ex = [] /\ f_state (r_fsm (rxs s')) <> Preamble /\
              togo (r_fsm (rxs s)) = S (togo (r_fsm (rxs s'))))
             \/ ((length ex <= 1)%nat /\ f_state (r_fsm (rxs s')) = Preamble /\
                 f_bit_count (r_fsm (rxs s')) = 0%nat /\ togo (r_fsm (rxs s)) = 1%nat)
      end.
  Proof.
    intros l s t (HI & Hq & Hf & Ho & Hl) Ht Hd Hh.
    assert (Hfull : full s = false) by (unfold full; apply Nat.eqb_neq; lia).
    rewrite receive_machine, (machine_some _ _ _ _ Ht), Hfull.
    destruct (r_fsm (rxs s)) as [ph bc by_ ck hb pk pe] eqn:Ef.
    unfold machine_hb, machine_bit, upd_f_packet_end, upd_f_is_halfbit, harmless, togo, Inv in *.
    cbn [f_state f_bit_count f_byte f_checksum f_is_halfbit f_packet f_packet_end negb] in *.
    destruct ph.
    - do 2 eexists. split; [reflexivity|]. cbn. rewrite app_nil_r. auto.
    - do 2 eexists. split; [reflexivity|]. cbn. rewrite app_nil_r.
      split; [reflexivity|]. split; [split; [lia|reflexivity]|]. left.
      split; [reflexivity|]. split; [discriminate|reflexivity].
    - destruct HI as (Hp & Hpl & -> & n & x & body & bits & Hn & Hh' & Hs & Hhb & Hb & Hc & ->).
      destruct hb; cbn [negb].
      + rewrite shift_in by lia. destruct (S bc <? 8)%nat eqn:E1.
        * apply Nat.ltb_lt in E1. do 2 eexists. split; [reflexivity|]. cbn -[Nat.sub Nat.mul]. rewrite app_nil_r.
          split; [reflexivity|]. split; [exact Hh|]. left. split; [reflexivity|]. split; [discriminate|]. lia.
        * apply Nat.ltb_ge in E1. destruct Hh as [Hh1 Hh2].
          replace (length pk <? 18)%nat with true by (symmetry; apply Nat.ltb_lt; exact Hh1).
          do 2 eexists. split; [reflexivity|]. cbn -[Nat.sub Nat.mul List.app]. rewrite app_nil_r.
          split; [reflexivity|]. split.
          { destruct pk; [right; cbn; lia|left; exact Hh2]. }
          left. split; [reflexivity|]. split; [discriminate|]. lia.
      + do 2 eexists. split; [reflexivity|]. cbn -[Nat.sub Nat.mul]. rewrite app_nil_r.
        split; [reflexivity|]. split; [exact Hh|]. left. split; [reflexivity|]. split; [discriminate|]. lia.
    - destruct HI as (Hp & Hpl & -> & -> & -> & n & x & body & q & bits & Hn & Hh' & Hpk & Hs & Hb & Hhb).
      destruct hb; cbn [negb].
      + destruct ((xor_all pk =? 0) && (3 <=? length pk)%nat) eqn:Ev.
        * apply andb_prop in Ev. destruct Ev as [_ Ev]. apply Nat.leb_le in Ev.
          rewrite accept_ordinary; unfold with_fsm; cbn [rxs r_fsm set_r_fsm f_packet r_deque]; auto.
          2: { destruct Hh as [Hh|Hh]; [exact Hh|lia]. }
          exists (Mk_st (Mk_rx (reset_fsm (upd_f_packet_end true (Mk_fsm Endbit 0 0 (xor_all pk) false pk false)))
             (r_deque (rxs s) ++ [pk]) (upd_packet_count (packet_count (r_cnt (rxs s)) + 1) (r_cnt (rxs s)))
             (upd_received (address_of pk) (r_addrs (rxs s))) (r_conf (rxs s)) (r_logon (rxs s)) (r_bidi (rxs s))
             (r_cv (rxs s)) (r_time (rxs s))) (app s) (pending s)), [pk].
          cbn -[List.app]. split; [reflexivity|]. split; [reflexivity|]. split; [exact Logic.I|].
          right. repeat split; auto.
        * do 2 eexists. split; [reflexivity|]. cbn. rewrite app_nil_r. repeat split; auto.
      + do 2 eexists. split; [reflexivity|]. cbn. rewrite app_nil_r. repeat split; auto.
        left. repeat split; auto; discriminate.
  Qed.

  Lemma ones_map : forall ts, Forall (fun t => half_bit t = Some true) ts ->
    map half_bit ts = map Some (repeat true (length ts)).
  Proof. intros ts H. induction H; cbn [map length repeat]; [reflexivity|]. congruence. Qed.

  Lemma ones_in_preamble : forall ts s, f_state (r_fsm (rxs s)) = Preamble ->
    (length (r_deque (rxs s)) < 31)%nat -> Forall (fun t => half_bit t = Some true) ts ->
    exists s', run E (map OReceive ts) s = Ok (tt, s', []) /\
      r_deque (rxs s') = r_deque (rxs s) /\ f_state (r_fsm (rxs s')) = Preamble.
  Proof.
    intros ts s Hs Hd Hts. destruct ts as [|t ts].
    - exists s. auto.
    - assert (Hfull : full s = false) by (unfold full; apply Nat.eqb_neq; lia).
      exists (with_fsm (upd_f_bit_count (f_bit_count (r_fsm (rxs s)) + length (t :: ts))
                         (upd_f_packet_end false (r_fsm (rxs s)))) s).
      split; [|split; [reflexivity|destruct (r_fsm (rxs s)); exact Hs]].
      apply (run_silent E (repeat true (length (t :: ts)))); [apply ones_map; exact Hts|].
      rewrite Hfull. apply silent_ones; auto. cbn [length]. lia.
  Qed.

  Lemma receive_ones : forall ts l s,
    Rl l s -> Forall (fun t => half_bit t = Some true) ts -> (S (length (r_deque (rxs s))) < 31)%nat ->
    harmless (r_fsm (rxs s)) -> (togo (r_fsm (rxs s)) <= length ts)%nat ->
    exists s' ex, run E (map OReceive ts) s = Ok (tt, s', []) /\
      r_deque (rxs s') = r_deque (rxs s) ++ ex /\ (length ex <= 1)%nat /\
      f_state (r_fsm (rxs s')) = Preamble.
  Proof.
    induction ts as [|t ts IH]; intros l s HR Hts Hd Hh Hg.
    - exists s, []. cbn [map run]. rewrite app_nil_r. split; [reflexivity|]. split; [reflexivity|].
      split; [cbn; lia|]. unfold togo in Hg. destruct HR as (HI & _). unfold Inv in HI.
      destruct (r_fsm (rxs s)) as [ph bc by_ ck hb pk pe].
      cbn [f_state f_bit_count f_is_halfbit length] in *. destruct ph; auto; destruct hb; try lia.
    - destruct (f_state (r_fsm (rxs s))) eqn:Es.
      1: { destruct (ones_in_preamble (t :: ts) s Es ltac:(lia) Hts) as (s' & H1 & H2 & H3).
           exists s', []. rewrite app_nil_r. repeat split; auto. }
      all: inversion Hts as [|? ? Ht Hts']; subst;
        destruct (receive_one l s t HR Ht ltac:(lia) Hh) as (s1 & ex & Hr & Hdq & Hh1 & Hc);
        assert (HR1 := receive_refines E _ _ _ _ _ HR Hr);
        rewrite Es in Hc;
        destruct Hc as [(-> & _ & Hg1)|(Hex & Hs1 & _ & _)];
        [ rewrite app_nil_r in Hdq; cbn [length] in Hg;
          destruct (IH _ s1 HR1 Hts' ltac:(rewrite Hdq; lia) Hh1 ltac:(lia)) as (s2 & ex2 & H1 & H2 & H3 & H4);
          exists s2, ex2; rewrite Hdq in H2; repeat split; auto;
          cbn [map]; rewrite (run_receive_cons E _ _ _ _ _ _ Hr), H1; reflexivity
        | destruct (ones_in_preamble ts s1 Hs1) as (s2 & H1 & H2 & H3); [|exact Hts'|];
          [rewrite Hdq, app_length; lia|];
          exists s2, ex; rewrite Hdq in H2; repeat split; auto;
          cbn [map]; rewrite (run_receive_cons E _ _ _ _ _ _ Hr), H1; reflexivity ].
  Qed.

  (** Passing over a packet whose preamble was missed *)
  Lemma silent_zero : forall f, f_state f = Preamble -> (f_bit_count f < 20)%nat ->
    silent false f [false] (reset_fsm (upd_f_packet_end false f)).
  Proof.
    intros [ph bc by_ ck hb pk pe] Hs Hc. cbn in Hs, Hc. subst ph.
    econstructor; [|constructor]. unfold machine_hb, machine_bit. cbn -[Nat.ltb].
    apply Nat.ltb_lt in Hc. rewrite Hc. reflexivity.
  Qed.

  Definition idle_below (n : nat) (f : fsm) : Prop :=
    f_state f = Preamble /\ (f_bit_count f <= n)%nat /\ f_byte f = 0 /\ f_checksum f = 0.

  Lemma silent_few : forall hs f n, idle_below n f -> (n + length hs <= 20)%nat ->
    exists f', silent false f hs f' /\ idle_below (n + length hs) f'.
  Proof.
    induction hs as [|b hs IH]; intros f n Hf Hn.
    - exists f. rewrite Nat.add_0_r. split; [constructor|exact Hf].
    - cbn [length] in *. destruct f as [ph bc by_ ck hb pk pe].
      destruct Hf as (H1 & H2 & H3 & H4). cbn in H1, H2, H3, H4. subst ph by_ ck.
      destruct b.
      + destruct (IH (Mk_fsm Preamble (S bc) 0 0 hb pk false) (S n)) as (f' & Hs & Hf');
          [repeat split; cbn; lia|lia|].
        exists f'. split; [|replace (n + S (length hs))%nat with (S n + length hs)%nat by lia; exact Hf'].
        econstructor; [|exact Hs]. reflexivity.
      + destruct (IH (Mk_fsm Preamble 0 0 0 hb pk false) 0%nat) as (f' & Hs & Hf');
          [repeat split; cbn; lia|lia|].
        exists f'. split.
        * econstructor; [|exact Hs]. unfold machine_hb, machine_bit. cbn -[Nat.ltb].
          replace (bc <? 20)%nat with true by (symmetry; apply Nat.ltb_lt; lia). reflexivity.
        * destruct Hf' as (A & B & C & D). repeat split; auto; lia.
  Qed.

  Lemma silent_missed_bytes : forall bs f, idle_below 19 f ->
    exists f', silent false f (doubled (flat_map (fun b => false :: msb_first b) bs)) f' /\
               idle_below (match bs with [] => 19 | _ => 16 end) f'.
  Proof.
    induction bs as [|b bs IH]; intros f Hf.
    - exists f. split; [constructor|exact Hf].
    - change (doubled (flat_map (fun b => false :: msb_first b) (b :: bs)))
        with ([false] ++ ([false] ++ doubled (msb_first b)) ++ doubled (flat_map (fun b => false :: msb_first b) bs)).
      destruct Hf as (H1 & H2 & H3 & H4).
      assert (S1 := silent_zero f H1 ltac:(lia)).
      set (f1 := reset_fsm (upd_f_packet_end false f)) in *.
      assert (S2 := silent_zero f1 eq_refl ltac:(cbn; lia)).
      set (f2 := reset_fsm (upd_f_packet_end false f1)) in *.
      destruct (silent_few (doubled (msb_first b)) f2 0) as (f3 & S3 & H5);
        [repeat split; cbn; lia|cbn; lia|].
      change (0 + length (doubled (msb_first b)))%nat with 16%nat in H5.
      destruct (IH f3) as (f4 & S4 & H6).
      { destruct H5 as (A & B & C & D). repeat split; auto; lia. }
      exists f4. split.
      + eapply silent_app; [exact S1|]. eapply silent_app; [|exact S4].
        eapply silent_app; [exact S2|exact S3].
      + destruct bs; [|exact H6]. cbn in S4. inversion S4; subst. exact H5.
  Qed.

  Lemma silent_missed : forall bs f, bs <> [] -> idle_below 19 f ->
    exists f', silent false f (doubled (flat_map (fun b => false :: msb_first b) bs ++ [true])) f' /\
               idle_below 18 f'.
  Proof.
    intros bs f Hb Hf. destruct (silent_missed_bytes bs f Hf) as (f1 & S1 & H1).
    destruct bs as [|b bs]; [congruence|].
    destruct (silent_few [true; true] f1 16 H1 ltac:(cbn; lia)) as (f2 & S2 & H2).
    exists f2. rewrite doubled_app. split; [|exact H2]. eapply silent_app; [exact S1|exact S2].
  Qed.

  Lemma Rl_preamble : forall l s, Rl l s -> f_state (r_fsm (rxs s)) = Preamble ->
    exists m hb pk pe, r_fsm (rxs s) = Mk_fsm Preamble m 0 0 hb pk pe.
  Proof.
    intros l s (HI & _) Hs. unfold Inv in HI. destruct (r_fsm (rxs s)) as [ph bc by_ ck hb pk pe].
    cbn in *. subst ph. destruct HI as (_ & -> & ->). do 4 eexists. reflexivity.
  Qed.

  (** Gap between packets in which no one half bit is seen *)
  Lemma run_gap : forall gap s, idle_below 18 (r_fsm (rxs s)) -> (length (r_deque (rxs s)) < 31)%nat ->
    Forall (fun t => half_bit t <> Some true) gap ->
    exists s', run E (map OReceive gap) s = Ok (tt, s', []) /\
      idle_below 18 (r_fsm (rxs s')) /\ r_deque (rxs s') = r_deque (rxs s).
  Proof.
    induction gap as [|t gap IH]; intros s Hi Hd Hg.
    - exists s. auto.
    - inversion Hg as [|? ? Ht Hg']; subst.
      assert (Hfull : full s = false) by (unfold full; apply Nat.eqb_neq; lia).
      assert (H1 : exists s1, receive E t s = Ok (tt, s1, []) /\ idle_below 18 (r_fsm (rxs s1)) /\
                   r_deque (rxs s1) = r_deque (rxs s)).
      { rewrite receive_machine, Hfull. destruct Hi as (A & B & C & D).
        destruct (r_fsm (rxs s)) as [ph bc by_ ck hb pk pe]. cbn in A, B, C, D. subst ph by_ ck.
        destruct (half_bit t) as [[|]|] eqn:Et; [congruence| |].
        - rewrite (machine_some _ _ _ _ Et). unfold machine_hb, machine_bit. cbn -[Nat.ltb].
          replace (bc <? 20)%nat with true by (symmetry; apply Nat.ltb_lt; lia).
          eexists. split; [reflexivity|]. split; [repeat split; cbn; lia|reflexivity].
        - unfold machine. rewrite Et. eexists. split; [reflexivity|]. split; [repeat split; cbn; lia|reflexivity]. }
      destruct H1 as (s1 & Hr & Hi1 & Hd1).
      destruct (IH s1 Hi1 ltac:(rewrite Hd1; exact Hd) Hg') as (s2 & H2 & H3 & H4).
      exists s2. rewrite Hd1 in H4. split; [|auto].
      cbn [map]. rewrite (run_receive_cons E _ _ _ _ _ _ Hr), H2. reflexivity.
  Qed.

  Theorem resync : forall l s bs1 n1 ts1 gap bs2 n2 ts2,
    Rl l s -> harmless (r_fsm (rxs s)) -> (length (r_deque (rxs s)) <= 28)%nat ->
    packet_ok bs1 -> (10 <= n1)%nat -> plays ts1 n1 bs1 ->
    Forall (fun t => half_bit t <> Some true) gap ->
    packet_ok bs2 -> (10 <= n2)%nat -> plays ts2 n2 bs2 ->
    exists s' ex,
      run E (map OReceive (ts1 ++ gap ++ ts2)) s = Ok (tt, s', []) /\
      r_deque (rxs s') = r_deque (rxs s) ++ ex ++ [bs2] /\ (length ex <= 2)%nat /\
      f_packet_end (r_fsm (rxs s')) = true /\ f_packet (r_fsm (rxs s')) = bs2 /\
      received (r_addrs (rxs s')) = address_of bs2.
  Proof.
    intros l s bs1 n1 ts1 gap bs2 n2 ts2 HR Hh Hd Hok1 Hn1 Hp1 Hgap Hok2 Hn2 Hp2.
    (* preamble of the first packet *)
    unfold plays, track_bits in Hp1. rewrite flat_map_app in Hp1.
    assert (Hrep : flat_map (fun b : bool => [b; b]) (repeat true n1) = repeat true (2 * n1)).
    { clear. induction n1; [reflexivity|]. cbn [repeat flat_map List.app]. rewrite IHn1.
      replace (2 * S n1)%nat with (S (S (2 * n1))) by lia. reflexivity. }
    rewrite Hrep in Hp1. apply map_Some_app_inv in Hp1. destruct Hp1 as (ta & tb & -> & Hpa & Hpb).
    assert (Hta : Forall (fun t => half_bit t = Some true) ta /\ length ta = (2 * n1)%nat).
    { clear - Hpa. revert ta Hpa. generalize (2 * n1)%nat. intros k. induction k; intros ta H; destruct ta; try discriminate.
      - split; [constructor|reflexivity].
      - cbn [repeat map] in H.
        assert (H1 : half_bit z = Some true) by congruence.
        assert (H2 : map half_bit ta = map Some (repeat true k)) by congruence.
        destruct (IHk ta H2) as [H3 H4].
        split; [constructor; assumption|cbn [length]; lia]. }
    destruct Hta as [Hta Hla].
    assert (Hg : (togo (r_fsm (rxs s)) <= 19)%nat).
    { unfold togo. destruct (f_state (r_fsm (rxs s))), (f_is_halfbit (r_fsm (rxs s))); lia. }
    destruct (receive_ones ta l s HR Hta ltac:(lia) Hh ltac:(lia)) as (s1 & ex1 & R1 & D1 & L1 & P1).
    assert (HR1 := run_refines E _ _ _ _ _ HR R1).
    destruct (Rl_preamble _ _ HR1 P1) as (m & hb & pk & pe & F1).
    (* rest of the first packet *)
    assert (H2 : exists s2 ex2, run E (map OReceive tb) s1 = Ok (tt, s2, []) /\
              r_deque (rxs s2) = r_deque (rxs s1) ++ ex2 /\ (length ex2 <= 1)%nat /\
              idle_below 18 (r_fsm (rxs s2))).
    { destruct (le_lt_dec 20 m) as [Hm|Hm].
      - assert (Hb : flat_map (fun b : bool => [b; b]) (flat_map (fun b => false :: msb_first b) bs1 ++ [true])
                   = [false; false] ++ doubled (frame_bits bs1)).
        { destruct Hok1 as (_ & Hl & _). destruct bs1; [cbn [length] in Hl; lia|]. reflexivity. }
        rewrite Hb in Hpb. apply map_Some_app_inv in Hpb. destruct Hpb as (tc & td & -> & Hpc & Hpd).
        destruct tc as [|t1 [|t2 [|]]]; try discriminate. cbn in Hpc.
        assert (Ht1 : half_bit t1 = Some false) by congruence.
        assert (Ht2 : half_bit t2 = Some false) by congruence.
        assert (Hd1 : (length (r_deque (rxs s1)) < 31)%nat) by (rewrite D1, app_length; lia).
        eexists _, [bs1]. split.
        + rewrite map_app. rewrite (run_ops_app E (map OReceive [t1; t2]) _ s1 _ [] (run_start E t1 t2 m hb pk pe false s1 F1 Hm Hd1 Ht1 Ht2)).
          rewrite (run_body E bs1 td _ Hok1); [reflexivity|split; [reflexivity|exact Hd1]|exact Hpd].
        + split; [reflexivity|]. split; [cbn; lia|]. unfold idle_below. cbn. repeat split; lia.
      - assert (Hne : bs1 <> []) by (destruct Hok1 as (_ & Hl & _); destruct bs1; [cbn [length] in Hl; lia|discriminate]).
        destruct (silent_missed bs1 (r_fsm (rxs s1)) Hne) as (f2 & S2 & I2).
        { rewrite F1. repeat split; cbn; lia. }
        eexists _, []. split.
        + apply (run_silent E _ _ f2 _ Hpb). 
          replace (full s1) with false; [exact S2|].
          symmetry. unfold full. apply Nat.eqb_neq. rewrite D1, app_length. lia.
        + cbn [rxs with_fsm set_r_fsm r_deque r_fsm length]. rewrite app_nil_r. repeat split; auto; apply I2. }
    destruct H2 as (s2 & ex2 & R2 & D2 & L2 & I2).
    (* gap *)
    destruct (run_gap gap s2 I2) as (s3 & R3 & I3 & D3); [|exact Hgap|].
    { rewrite D2, D1, !app_length. lia. }
    (* second packet *)
    destruct I3 as (A & B & C & D).
    destruct (r_fsm (rxs s3)) as [ph bc by_ ck hb3 pk3 pe3] eqn:F3. cbn in A, B, C, D. subst ph by_ ck.
    assert (R4 := run_packet E bs2 ts2 n2 bc hb3 pk3 pe3 s3 Hok2 F3 ltac:(lia) ltac:(lia)
                    ltac:(rewrite D3, D2, D1, !app_length; lia) Hp2).
    eexists _, (ex1 ++ ex2). split.
    - rewrite !map_app. rewrite <- app_assoc.
      rewrite (run_ops_app E _ _ s s1 [] R1).
      rewrite (run_ops_app E _ _ s1 s2 [] R2).
      rewrite (run_ops_app E _ _ s2 s3 [] R3). rewrite R4. reflexivity.
    - cbn [rxs with_rx r_deque r_fsm f_packet_end f_packet r_addrs received upd_received].
      rewrite D3, D2, D1, <- !app_assoc, !app_length. repeat split; auto; lia.
  Qed.
End Resync.
