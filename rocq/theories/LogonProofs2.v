(** Logon packets from reception to effect *)
From Verif Require Import Prelude Address Instruction Checksum Datagram Speed Packets Backoff RxState Rx ZBits RxLogic RxInv
  SpecCodec CodecProofs CodecProofs2 SpecRx RxBitProofs SpecExec SpecConf ExecProofs ConfProofs SaneProofs SpecLogon LogonProofs.

(** ** Reception in general *)
Section Receive.
  Context {I : Type} (E : Env I).
  Implicit Types s : st I.

  Lemma receive_nothing : forall l s t, Rl l s -> completed (OReceive t) l = None ->
    receive E t s = UB PacketFull \/
    exists f c ad, receive E t s = Ok (tt, Mk_st (Mk_rx f (r_deque (rxs s)) c ad (r_conf (rxs s)) (r_logon (rxs s))
        (r_bidi (rxs s)) (r_cv (rxs s)) (r_time (rxs s))) (app s) (pending s), []) /\
      f_packet_end f = false /\ packet_count c = packet_count (r_cnt (rxs s)) /\ qos c = qos (r_cnt (rxs s)) /\
      (ad = r_addrs (rxs s) \/ ad = upd_received addr0 (r_addrs (rxs s))).
  Proof.
    intros l s t (HI & Hq & Hf & Ho & Hl) Hc. rewrite receive_machine. cbn [completed] in Hc.
    destruct (half_bit t) as [b|] eqn:Et.
    2: { unfold machine. rewrite Et. right. do 3 eexists. split; [reflexivity|]. cbn. auto. }
    pose proof (machine_sim (l_heard l) (r_fsm (rxs s)) (full s) b t HI Et) as Hs. cbv zeta in Hs.
    replace (length (l_queue l) =? 31)%nat with (full s) in Hc by (unfold full; rewrite Hq; reflexivity).
    destruct (machine (full s) (r_fsm (rxs s)) t) as [f a] eqn:Em. cbn [fst snd] in Hs.
    destruct (looked_at (l_heard l ++ [b]) && full s) eqn:El.
    { destruct Hs as (-> & HI' & Hp). right. exists f. do 2 eexists. split; [reflexivity|]. cbn. auto. }
    destruct (reading (l_heard l ++ [b])) as [| |bs] eqn:Er.
    - destruct Hs as [[-> _]|[[->| ->] [HI' [Hp _]]]]; [left; reflexivity| |];
        right; exists f; do 2 eexists; (split; [reflexivity|]); cbn; auto.
    - destruct Hs as (-> & HI' & Hp). right. exists f. do 2 eexists. split; [reflexivity|]. cbn. auto.
    - destruct Hs as (Hby & Hlen & Hs). destruct (valid_packet bs); [discriminate|].
      destruct Hs as (-> & HI' & Hp & _). right. exists f. do 2 eexists. split; [reflexivity|]. cbn. auto.
  Qed.

  Lemma receive_ordinary : forall l s t p, Rl l s -> completed (OReceive t) l = Some p -> is_logon p = false ->
    Forall byte p /\ (3 <= length p)%nat /\ exists f, f_packet f = p /\
    receive E t s = Ok (tt, Mk_st (Mk_rx (reset_fsm (upd_f_packet_end true f)) (r_deque (rxs s) ++ [p])
              (upd_packet_count (packet_count (r_cnt (rxs s)) + 1) (r_cnt (rxs s)))
              (upd_received (address_of p) (r_addrs (rxs s))) (r_conf (rxs s)) (r_logon (rxs s)) (r_bidi (rxs s))
              (r_cv (rxs s)) (r_time (rxs s))) (app s) (pending s), []).
  Proof.
    intros l s t p HR Hc Hlg. pose proof HR as (HI & Hq & Hf & Ho & Hl). rewrite receive_machine. cbn [completed] in Hc.
    destruct (half_bit t) as [b|] eqn:Et; [|discriminate].
    pose proof (machine_sim (l_heard l) (r_fsm (rxs s)) (full s) b t HI Et) as Hs. cbv zeta in Hs.
    replace (length (l_queue l) =? 31)%nat with (full s) in Hc by (unfold full; rewrite Hq; reflexivity).
    destruct (machine (full s) (r_fsm (rxs s)) t) as [f a] eqn:Em. cbn [fst snd] in Hs.
    destruct (looked_at (l_heard l ++ [b]) && full s) eqn:El; [discriminate|].
    destruct (reading (l_heard l ++ [b])) as [| |bs] eqn:Er; try discriminate.
    destruct Hs as (Hby & Hlen & Hs). destruct (valid_packet bs) eqn:Ev; [|discriminate].
    assert (bs = p) as -> by congruence. destruct Hs as [-> Hpk].
    unfold valid_packet in Ev. apply andb_prop in Ev. destruct Ev as [_ Ev]. apply Nat.leb_le in Ev.
    split; [exact Hby|]. split; [exact Ev|]. exists f. split; [exact Hpk|].
    assert (full s = false) as Hfull.
    { destruct (full s) eqn:Ef; [|reflexivity]. exfalso. clear - Em Et. unfold machine in Em. rewrite Et in Em.
      destruct (r_fsm (rxs s)) as [ph bc by_ ck hb pk pe].
      unfold upd_f_packet_end, upd_f_is_halfbit, machine_bit in *.
      cbn [f_state f_bit_count f_byte f_checksum f_is_halfbit f_packet f_packet_end] in *.
      destruct ph; try (inversion Em; fail); destruct (negb hb); inversion Em. }
    unfold full in Hfull. apply Nat.eqb_neq in Hfull. rewrite Hq in Hfull.
    rewrite accept_ordinary; unfold with_fsm; cbn [rxs r_fsm set_r_fsm r_deque]; rewrite ?Hpk; auto.
    rewrite Hq. lia.
  Qed.
End Receive.

(** ** What a packet means *)

Lemma high_nibble : forall k c, 0 <= c < 16 -> In k [208; 224; 240] -> Z.land (k + c) 0xF0 = k.
Proof.
  intros k c Hc Hk.
  assert (H : forallb (fun c => forallb (fun k => Z.land (k + c) 0xF0 =? k) [208; 224; 240]) (zseq 0 16) = true) by (vm_compute; reflexivity).
  rewrite forallb_forall in H. assert (In c (zseq 0 16)) as Hi by (apply zseq_In; cbn; lia).
  specialize (H c Hi). cbn beta in H. rewrite forallb_forall in H. apply Z.eqb_eq, H, Hk.
Qed.
Lemma low_nibble : forall k, byte k -> k < 208 -> forall x, In x [208; 224; 240] -> (Z.land k 0xF0 =? x) = false.
Proof.
  intros k Hk Hl x Hx.
  assert (H := sweep8 (fun k => (208 <=? k) || forallb (fun x => negb (Z.land k 0xF0 =? x)) [208; 224; 240]) ltac:(vm_compute; reflexivity) k Hk).
  cbn beta in H. replace (208 <=? k) with false in H by (symmetry; lia). cbn [orb] in H.
  rewrite forallb_forall in H. specialize (H x Hx). destruct (Z.land k 0xF0 =? x); [discriminate|reflexivity].
Qed.

Definition group_number (g : Z) : address_group :=
  match g with 0 => GAll | 1 => GLoco | 2 => GAcc | _ => GNow end.
Lemma group_of_number : forall c, 0 <= c < 16 -> group_of (240 + c) = group_number (c mod 4).
Proof.
  intros c Hc. unfold group_of. change 3 with (Z.ones 2). rewrite Z.land_ones by lia. change (2 ^ 2) with 4.
  replace ((240 + c) mod 4) with (c mod 4) by lia. reflexivity.
Qed.

Section Meaning.
  Context {I : Type} (E : Env I).
  Implicit Types s : st I.

  Definition done (x : res (unit * st I * list event)) : res (bool * st I * list event) :=
    match x with Ok (_, s, es) => Ok (true, s, es) | UB r => UB r end.
  Lemma then_true : forall (m : M (I := I) unit) s, bind m (fun _ => ret true) s = done (m s).
  Proof.
    intros m s. unfold bind, ret, done. destruct (m s) as [[[u s1] e1]|r]; [|reflexivity]. rewrite app_nil_r. reflexivity.
  Qed.
  Lemma lift_then : forall A (m : M (I := I) A) s, (match m s with Ok (b, s2, e2) => Ok (b, s2, [] ++ e2) | UB r => UB r end) = m s.
  Proof. intros A m s. destruct (m s) as [[[? ?] ?]|]; reflexivity. Qed.
  Lemma bind_lift : forall A B a (k : A -> M (I := I) B) s, bind (lift (Ok a)) k s = k a s.
  Proof. intros. unfold bind, lift. apply (lift_then _ (k a)). Qed.
  Lemma bind_at : forall B bs i x (k : Z -> M (I := I) B) s, nth_error bs i = Some x -> bind (at_ bs i) k s = k x s.
  Proof. intros B bs i x k s H. unfold bind, at_. rewrite H. unfold ret. apply (lift_then _ (k x)). Qed.

  Lemma enable_meaning : forall s c cid sid rest, 0 <= c < 16 -> 0 <= cid < 65536 ->
    executeAutomaticLogon E (Addr 254 ATLogon false) (240 + c :: cid / 256 :: cid mod 256 :: sid :: rest) s
    = done (logonEnable E (group_number (c mod 4)) cid sid s).
  Proof.
    intros s c cid sid rest Hc Hcid. unfold executeAutomaticLogon. cbn [aval]. change (negb (254 =? 254)) with false. cbn iota.
    erewrite bind_at by reflexivity. rewrite !high_nibble by (cbn [In]; auto; lia).
    change (240 =? 0xD0) with false. change (240 =? 0xE0) with false. change (240 =? 0xF0) with true. cbn iota.
    rewrite then_true. f_equal. cbn [skipn].
    replace (data2uint16 (cid / 256 :: cid mod 256 :: sid :: rest)) with (Ok cid).
    2: { unfold data2uint16. cbn [nth_error]. symmetry. f_equal. rewrite Z.shiftl_mul_pow2 by lia.
         rewrite lor_add by lia. change (2 ^ 8) with 256. unfold u16. lia. }
    rewrite bind_lift. erewrite bind_at by reflexivity. rewrite group_of_number by exact Hc. reflexivity.
  Qed.

  Lemma subspan_id : forall k man id rest, length id = 4%nat -> subspan4 (k :: man :: id ++ rest) 2 = Ok id.
  Proof.
    intros k man id rest H. unfold subspan4. cbn [length]. rewrite app_length, H. cbn [Nat.leb Nat.add skipn].
    rewrite <- H at 1. rewrite firstn_app, Nat.sub_diag, firstn_all. cbn [firstn]. rewrite app_nil_r. reflexivity.
  Qed.

  Lemma select_meaning : forall s c man id rest, 0 <= c < 16 -> length id = 4%nat ->
    executeAutomaticLogon E (Addr 254 ATLogon false) (208 + c :: man :: id ++ rest) s = done (logonSelect id s).
  Proof.
    intros s c man id rest Hc Hid. unfold executeAutomaticLogon. cbn [aval]. change (negb (254 =? 254)) with false. cbn iota.
    erewrite bind_at by reflexivity. rewrite !high_nibble by (cbn [In]; auto; lia).
    change (208 =? 0xD0) with true. cbn iota. rewrite then_true. f_equal. rewrite subspan_id by exact Hid. apply bind_lift.
  Qed.

  Lemma assign_meaning : forall s c man id a b x rest, 0 <= c < 16 -> length id = 4%nat -> byte a -> byte b -> byte x -> Forall byte rest ->
    executeAutomaticLogon E (Addr 254 ATLogon false) (224 + c :: man :: id ++ a :: b :: x :: rest) s
    = match understood a b x with
      | Some A => done (logonAssign id A (a <? 192) s)
      | None => Ok (true, s, [])
      end.
  Proof.
    intros s c man id a b x rest Hc Hid Ha Hb Hx Hr. unfold executeAutomaticLogon. cbn [aval]. change (negb (254 =? 254)) with false. cbn iota.
    erewrite bind_at by reflexivity. rewrite !high_nibble by (cbn [In]; auto; lia).
    change (224 =? 0xD0) with false. change (224 =? 0xE0) with true. cbn iota. rewrite then_true.
    rewrite subspan_id by exact Hid. rewrite bind_lift.
    destruct id as [|i0 [|i1 [|i2 [|i3 [|? ?]]]]]; try discriminate. cbn [List.app skipn].
    erewrite bind_at by reflexivity. cbv zeta.
    replace (Z.land a 0x3F) with (a mod 64) by (change 0x3F with (Z.ones 6); rewrite Z.land_ones by lia; reflexivity).
    replace (negb (Z.land a 0xC0 =? 0xC0)) with (a <? 192).
    2: { apply eqb_prop. exact (sweep8 (fun a => Bool.eqb (a <? 192) (negb (Z.land a 0xC0 =? 0xC0))) ltac:(vm_compute; reflexivity) a Ha). }
    unfold understood. cbv zeta. destruct (Z.ltb_spec (a mod 64) 40) as [H1|H1].
    - rewrite decode_address_of by (try (cbn [length]; lia); repeat (apply Forall_cons; [assumption|]); exact Hr).
      rewrite bind_lift. replace (address_of (a :: b :: x :: rest)) with (address_of [a; b]) by reflexivity. reflexivity.
    - replace (a mod 64 <? 0x28) with false by (symmetry; lia). destruct (Z.eqb_spec (a mod 64) 56) as [H2|H2].
      + rewrite H2. change (56 <? 0x38) with false. change (56 <? 0x39) with true. cbn iota.
        rewrite decode_address_of by (try (cbn [length]; lia); repeat (apply Forall_cons; [assumption|]); exact Hr).
        rewrite bind_lift. replace (address_of (b :: x :: rest)) with (address_of [b; x]) by reflexivity. reflexivity.
      + destruct (a mod 64 <? 0x38) eqn:E3; [reflexivity|]. replace (a mod 64 <? 0x39) with false by (symmetry; lia). reflexivity.
  Qed.

  Lemma nothing_meaning : forall s k rest, byte k -> k < 208 ->
    executeAutomaticLogon E (Addr 254 ATLogon false) (k :: rest) s = Ok (true, s, []).
  Proof.
    intros s k rest Hb Hk. unfold executeAutomaticLogon. cbn [aval]. change (negb (254 =? 254)) with false. cbn iota.
    erewrite bind_at by reflexivity. rewrite !low_nibble by (cbn [In]; auto). reflexivity.
  Qed.

  (** ** Frame *)

  Lemma took_entered : forall f p s g i, f_packet f = p ->
    (forall r, r_fsm (g r) = r_fsm r /\ r_deque (g r) = r_deque r /\ r_cnt (g r) = r_cnt r /\ r_conf (g r) = r_conf r /\
       r_bidi (g r) = r_bidi r /\ r_cv (g r) = r_cv r /\ r_time (g r) = r_time r /\ received (r_addrs (g r)) = received (r_addrs r) /\
       cid_front (r_logon (g r)) = cid_front (r_logon r) /\ sid_front (r_logon (g r)) = sid_front (r_logon r)) ->
    let s2 := Mk_st (g (rxs (entered f p s))) i (pending s) in
    took s p (with_fsm (reset_fsm (r_fsm (rxs s2))) s2).
  Proof.
    intros f p s g i Hf Hg. cbv zeta. destruct (Hg (rxs (entered f p s))) as (H1 & H2 & H3 & H4 & H5 & H6 & H7 & H8 & H9 & H10).
    unfold took, aside, known_station, known_session, with_fsm. cbn [rxs set_r_fsm r_fsm r_deque r_cnt r_addrs r_conf r_logon r_bidi r_cv r_time pending app].
    rewrite H1, H2, H3, H4, H5, H6, H7, H8, H9, H10. cbn. auto.
  Qed.
End Meaning.
