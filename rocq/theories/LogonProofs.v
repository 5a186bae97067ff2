(** Proofs about automatic logon *)
From Verif Require Import Prelude Address Instruction Checksum Datagram Speed Packets Backoff RxState Rx ZBits RxLogic RxInv
  SpecCodec CodecProofs CodecProofs2 SpecRx RxBitProofs SpecExec SpecConf ConfProofs SaneProofs SpecLogon.

Lemma list_eqb_spec : forall a b, list_eqb a b = true <-> a = b.
Proof.
  induction a as [|x a IH]; intros [|y b]; cbn [list_eqb]; split; intros H; try discriminate; try reflexivity.
  - apply andb_prop in H. destruct H as [H1 H2]. apply Z.eqb_eq in H1. apply IH in H2. congruence.
  - inversion H; subst. rewrite Z.eqb_refl. apply IH. reflexivity.
Qed.

Lemma base64_0 : forall d, digit ((d / 64 ^ Z.of_nat 0) mod 64). Proof. intros. unfold digit. lia. Qed.

(** A datagram of 48 bits *)
Lemma encode48 : forall v, exists cs, encode_datagram (base64 8 v) = Ok cs /\ coded (base64 8 v) cs /\ length cs = 8%nat.
Proof.
  intros v. destruct (encode_datagram_spec (base64 8 v) (base64_digits 8 v)) as (cs & H1 & H2 & H3 & _).
  exists cs. rewrite base64_length in H3. auto.
Qed.

Lemma crc_serial_byte : forall m, Forall byte m -> byte (crc_serial m).
Proof. intros m Hm. rewrite <- crc8_serial by exact Hm. apply crc8_range. exact Hm. Qed.

Lemma join6 : forall a b c d e f, byte a -> byte b -> byte c -> byte d -> byte e -> byte f ->
  Z.lor (Z.lor (Z.lor (Z.lor (Z.lor (Z.shiftl a 40) (Z.shiftl b 32)) (Z.shiftl c 24)) (Z.shiftl d 16)) (Z.shiftl e 8)) f
  = big_endian [a; b; c; d; e; f].
Proof.
  intros a b c d e f Ha Hb Hc Hd He Hf. unfold byte in *. unfold big_endian. cbn [fold_left].
  rewrite !Z.shiftl_mul_pow2 by lia.
  replace (a * 2 ^ 40) with (a * 2 ^ 8 * 2 ^ 32) by (change (2 ^ 40) with (2 ^ 8 * 2 ^ 32); ring).
  assert (forall x y k, 0 <= y < 2 ^ 8 -> 0 <= k -> Z.lor (x * 2 ^ 8 * 2 ^ k) (y * 2 ^ k) = (x * 2 ^ 8 + y) * 2 ^ k) as L.
  { intros x y k Hy Hk. rewrite <- !Z.shiftl_mul_pow2 by lia. rewrite <- Z.shiftl_lor.
    rewrite (Z.shiftl_mul_pow2 x) by lia. rewrite lor_add by lia. reflexivity. }
  rewrite L by lia.
  replace ((a * 2 ^ 8 + b) * 2 ^ 32) with ((a * 2 ^ 8 + b) * 2 ^ 8 * 2 ^ 24) by (change (2 ^ 32) with (2 ^ 8 * 2 ^ 24); ring).
  rewrite L by lia.
  match goal with |- Z.lor (Z.lor (Z.lor (?x * 2 ^ 24) _) _) _ = _ => replace (x * 2 ^ 24) with (x * 2 ^ 8 * 2 ^ 16) by (change (2 ^ 24) with (2 ^ 8 * 2 ^ 16); ring) end.
  rewrite L by lia.
  match goal with |- Z.lor (Z.lor (?x * 2 ^ 16) _) _ = _ => replace (x * 2 ^ 16) with (x * 2 ^ 8 * 2 ^ 8) by (change (2 ^ 16) with (2 ^ 8 * 2 ^ 8); ring) end.
  rewrite L by lia.
  rewrite lor_add by lia. change (2 ^ 8) with 256. ring.
Qed.

Lemma big_endian_range : forall bs, Forall byte bs -> 0 <= big_endian bs < 256 ^ Z.of_nat (length bs).
Proof.
  intros bs. unfold big_endian. induction bs as [|b bs IH] using rev_ind; intros H; [cbn; lia|].
  apply Forall_app in H. destruct H as [H1 H2]. inversion H2; subst. specialize (IH H1).
  rewrite fold_left_app, app_length. cbn [fold_left length].
  replace (Z.of_nat (length bs + 1)) with (Z.succ (Z.of_nat (length bs))) by lia.
  rewrite Z.pow_succ_r by lia. unfold byte in *. lia.
Qed.

Lemma crc_datagram_spec : forall bs, Forall byte bs -> length bs = 5%nat ->
  exists cs, crc_datagram bs = Ok cs /\ coded (base64 8 (with_crc bs)) cs /\ length cs = 8%nat.
Proof.
  intros bs Hb Hl. destruct bs as [|a [|b [|c [|d [|e [|? ?]]]]]]; try discriminate.
  pose proof (crc_serial_byte _ Hb) as Hc. unfold crc_datagram. rewrite crc8_serial by exact Hb.
  set (k := crc_serial [a; b; c; d; e]) in *.
  rewrite join6 by (try exact Hc; repeat match goal with H : Forall _ (_ :: _) |- _ => inversion H; clear H; subst end; assumption).
  change (big_endian [a; b; c; d; e; k]) with (with_crc [a; b; c; d; e]).
  assert (0 <= with_crc [a; b; c; d; e] < 2 ^ 48) as Hr.
  { unfold with_crc. pose proof (big_endian_range ([a; b; c; d; e] ++ [k])) as R. fold k.
    change (2 ^ 48) with (256 ^ Z.of_nat (length ([a; b; c; d; e] ++ [k]))). apply R.
    apply Forall_app. split; [exact Hb|]. apply Forall_cons; [exact Hc|apply Forall_nil]. }
  rewrite (make_datagram_spec B48) by exact Hr. cbn [rbind]. change (datagram_size B48) with 8%nat.
  apply encode48.
Qed.

Lemma enable_datagram : forall d0 d1 d2 d3, byte d0 -> byte d1 -> byte d2 -> byte d3 ->
  exists cs, rbind (make_datagram_id B48 15
      (Z.lor (Z.lor (Z.lor (Z.lor (Z.shiftl manufacturer_id 32) (Z.shiftl d0 24)) (Z.shiftl d1 16)) (Z.shiftl d2 8)) d3))
      encode_datagram = Ok cs /\ coded (base64 8 (enable_answer [d0; d1; d2; d3])) cs /\ length cs = 8%nat.
Proof.
  intros d0 d1 d2 d3 H0 H1 H2 H3.
  pose proof (join6 0 145 d0 d1 d2 d3) as J. rewrite Z.shiftl_0_l, Z.lor_0_l in J.
  change manufacturer_id with 145. rewrite J by (try assumption; unfold byte; lia).
  assert (0 <= big_endian [0; 145; d0; d1; d2; d3] < 2 ^ 44) as R.
  { pose proof (big_endian_range [d0; d1; d2; d3]) as R. cbn [length] in R.
    unfold big_endian in *. cbn [fold_left] in *.
    specialize (R ltac:(repeat (apply Forall_cons; [assumption|]); apply Forall_nil)). unfold byte in *. lia. }
  rewrite make_datagram_id_spec by (try lia; exact R). cbn [rbind]. change (datagram_size B48) with 8%nat.
  replace (15 * 2 ^ id_bits B48 + big_endian [0; 145; d0; d1; d2; d3]) with (enable_answer [d0; d1; d2; d3]); [apply encode48|].
  unfold enable_answer, big_endian. cbn [fold_left id_bits]. ring.
Qed.

Section Logon.
  Context {I : Type} (E : Env I).
  Implicit Types s : st I.

  (** State in which the handler runs *)
  Definition entered (f : fsm) (p : list Z) s : st I :=
    Mk_st (Mk_rx (upd_f_packet_end true f) (r_deque (rxs s)) (upd_packet_count (packet_count (r_cnt (rxs s)) + 1) (r_cnt (rxs s)))
             (upd_received (address_of p) (r_addrs (rxs s))) (r_conf (rxs s)) (r_logon (rxs s)) (r_bidi (rxs s))
             (r_cv (rxs s)) (r_time (rxs s))) (app s) (pending s).
  Definition closing (x : res (bool * st I * list event)) : res (unit * st I * list event) :=
    match x with
    | Ok (_, s2, es) => Ok (tt, with_fsm (reset_fsm (r_fsm (rxs s2))) s2, es)
    | UB r => UB r
    end.
  Definition undamaged_b (p : list Z) : bool := (length p <=? 7)%nat || (crc_serial (removelast p) =? 0).
  Lemma undamaged_spec : forall p, undamaged_b p = true <-> undamaged p.
  Proof.
    intros p. unfold undamaged_b, undamaged. rewrite orb_true_iff, Nat.leb_le, Z.eqb_eq. reflexivity.
  Qed.

  Lemma is_logon_254 : forall p, is_logon p = true -> exists r, p = 254 :: r /\ address_of p = Addr 254 ATLogon false.
  Proof.
    intros [|b r] H; [discriminate|]. cbn [is_logon] in H. apply Z.eqb_eq in H. subst b.
    exists r. split; reflexivity.
  Qed.

  Lemma handler_logon : forall f p s, f_packet f = p -> Forall byte p -> (3 <= length p)%nat -> is_logon p = true ->
    executeHandlerMode E (entered f p s) =
    (if undamaged_b p
     then match executeAutomaticLogon E (address_of p) (tl p) (entered f p s) with
          | Ok (_, s2, es) => Ok (true, s2, es) | UB r => UB r end
     else Ok (true, entered f p s, [])).
  Proof.
    intros f p s Hf Hb Hl Hlg. destruct (is_logon_254 _ Hlg) as (r & Hp & Ha).
    unfold executeHandlerMode. unfold bind at 1. cbn [get].
    change (received (r_addrs (rxs (entered f p s)))) with (address_of p).
    change (f_packet (r_fsm (rxs (entered f p s)))) with (f_packet f). rewrite Hf.
    assert (atype_eqb (atyp (address_of p)) ATLogon = true) as Ht by (rewrite Ha; reflexivity).
    rewrite Ht. cbn [negb]. cbv zeta. change (6 + 1)%nat with 7%nat.
    assert (skipn 1 p = tl p) as -> by (destruct p; reflexivity).
    assert (crc8_packet p = Ok (crc_serial (removelast p))) as Hc.
    { destruct (exists_last (l := p)) as (q & x & Hq); [intro K; rewrite K in Hl; cbn [length] in Hl; lia|].
      rewrite Hq, removelast_last. apply crc8_packet_serial. rewrite Hq in Hb. apply Forall_app in Hb. tauto. }
    unfold undamaged_b. destruct (length p <=? 7)%nat; cbn [orb].
    - unfold bind, ret. destruct (executeAutomaticLogon _ _ _ _) as [[[b s2] es]|u]; [|reflexivity].
      cbn [List.app]. rewrite !app_nil_r. reflexivity.
    - rewrite Hc. unfold bind, lift, ret. destruct (crc_serial (removelast p) =? 0).
      + destruct (executeAutomaticLogon _ _ _ _) as [[[b s2] es]|u]; [|reflexivity].
        cbn [List.app]. rewrite !app_nil_r. reflexivity.
      + reflexivity.
  Qed.

  Lemma logon_receive : forall s t p, hears E s t p -> is_logon p = true ->
    sane (rxs s) /\ Forall byte p /\ (3 <= length p)%nat /\
    exists f, f_packet f = p /\
    receive E t s = closing (if undamaged_b p then executeAutomaticLogon E (address_of p) (tl p) (entered f p s)
                             else Ok (true, entered f p s, [])).
  Proof.
    intros s t p (i & os & es & Hr & Hc) Hlg. split; [exact (sane_run E _ _ _ _ Hr)|].
    pose proof (run_refines E _ _ _ _ _ (Rl0 i) Hr) as (HI & Hq & _ & _ & _).
    set (l := listen_all os listener0) in *. cbn [completed] in Hc.
    destruct (half_bit t) as [b|] eqn:Et; [|discriminate].
    pose proof (machine_sim (l_heard l) (r_fsm (rxs s)) (full s) b t HI Et) as Hs. cbv zeta in Hs.
    replace (length (l_queue l) =? 31)%nat with (full s) in Hc by (unfold full; rewrite Hq; reflexivity).
    destruct (machine (full s) (r_fsm (rxs s)) t) as [f a] eqn:Em. cbn [fst snd] in Hs.
    destruct (looked_at (l_heard l ++ [b]) && full s); [discriminate|].
    destruct (reading (l_heard l ++ [b])) as [| |bs] eqn:Er; try discriminate.
    destruct (valid_packet bs) eqn:Ev; [|discriminate]. assert (bs = p) as -> by congruence.
    destruct Hs as (Hby & Hlen & -> & Hpk).
    unfold valid_packet in Ev. apply andb_prop in Ev. destruct Ev as [_ Ev]. apply Nat.leb_le in Ev.
    split; [exact Hby|]. split; [exact Ev|]. exists f. split; [exact Hpk|].
    rewrite receive_machine, Em. unfold accept.
    change (f_packet (r_fsm (rxs (with_fsm f s)))) with (f_packet f). rewrite Hpk, decode_address_of by (auto; lia).
    unfold bind at 1. unfold bind at 1. cbn [modify]. unfold bind at 1. cbn [modify]. unfold bind at 1. cbn [lift].
    unfold bind at 1. cbn [modify]. unfold bind at 1.
    match goal with |- context [executeHandlerMode E ?x] => change x with (entered f p s) end.
    rewrite handler_logon by auto. destruct (undamaged_b p).
    - destruct (executeAutomaticLogon _ _ _ _) as [[[b1 s2] es2]|u]; [|reflexivity].
      unfold ret, reset, modify, closing, with_fsm. cbn [List.app]. rewrite !app_nil_r. reflexivity.
    - reflexivity.
  Qed.

  (** ** The three commands *)

  Definition add_answer (cs : list Z) (r : rx) : rx := set_logon_deque [cs] r.

  Lemma select_run : forall s id, sane (rxs s) -> exists cs,
    coded (base64 8 (select_answer (aval (primary (r_addrs (rxs s)))))) cs /\
    logonSelect id s =
    if logon_on s && negb (is_assigned s) && list_eqb id (own_id s) then
      match logon_answers s with
      | [] => Ok (tt, with_rx (fun r => set_logon_deque [cs] (set_logon_selected true r)) s, [])
      | _ => UB AssertFailed
      end
    else Ok (tt, s, []).
  Proof.
    intros s id Hs. open_sane Hs. set (n := aval (primary (r_addrs (rxs s)))) in *.
    destruct (crc_datagram_spec [128 + n / 256; n mod 256; 0; 0; 0]) as (cs & Hc & Hd & _);
      [repeat (apply Forall_cons; [unfold byte; lia|]); apply Forall_nil|reflexivity|].
    exists cs. split; [exact Hd|]. unfold logonSelect. unfold bind at 1. cbn [get].
    fold (logon_on s) (is_assigned s) (own_id s).
    destruct (logon_on s) eqn:E1, (is_assigned s) eqn:E2, (list_eqb id (own_id s)) eqn:E3; cbn [negb orb andb]; try reflexivity.
    unfold bind at 1. cbn [modify]. unfold logon_answers.
    destruct (logon_deque (r_logon (rxs s))) as [|q0 q1] eqn:E4; [|reflexivity].
    cbn [length Nat.ltb Nat.leb]. cbv zeta. fold n.
    replace (u8 (Z.lor 128 (Z.shiftr n 8))) with (128 + n / 256).
    2: { rewrite Z.shiftr_div_pow2 by lia. change 128 with (1 * 2 ^ 7). rewrite lor_add by lia. unfold u8. lia. }
    change (u8 n) with (n mod 256). rewrite Hc.
    clearbody n. destruct s as [[f dq cnt ad cf lg bd cv tm] i pd]. destruct lg as [l1 l2 l3 l4 l5 l6 l7 l8 l9].
    cbn [rxs r_logon logon_deque] in E4. subst l9. reflexivity.
  Qed.

  Definition assigned_rx (a : address) (ow : bool) (cs : list Z) (r : rx) : rx :=
    set_r_logon (Mk_logons (logon_selected (r_logon r)) true true (cid_front (r_logon r)) (cid_back (r_logon r))
                   (sid_front (r_logon r)) (sid_back (r_logon r)) (logon_backoff (r_logon r)) [cs])
      (set_r_addrs (Mk_addrs (if negb (aval a =? 0) && ow then a else primary (r_addrs r))
                      (Addr 0 (atyp (consist (r_addrs r))) (arev (consist (r_addrs r)))) a (received (r_addrs r))) r).

  Lemma assign_run : forall s id a ow, exists cs,
    coded (base64 8 assign_answer) cs /\
    logonAssign id a ow s =
    if logon_on s && list_eqb id (own_id s) then
      match logon_answers s with
      | [] => Ok (tt, with_rx (assigned_rx a ow cs) s, [])
      | _ => UB AssertFailed
      end
    else Ok (tt, s, []).
  Proof.
    intros s id a ow.
    destruct (crc_datagram_spec [16 * 13; 0; 0; 0; 0]) as (cs & Hc & Hd & _);
      [repeat (apply Forall_cons; [unfold byte; lia|]); apply Forall_nil|reflexivity|].
    exists cs. split; [exact Hd|]. unfold logonAssign. unfold bind at 1. cbn [get].
    fold (logon_on s) (own_id s).
    destruct (logon_on s) eqn:E1, (list_eqb id (own_id s)) eqn:E3; cbn [negb orb andb]; try reflexivity.
    unfold logon_answers. change (u8 (Z.shiftl 13 4)) with (16 * 13). rewrite Hc.
    destruct s as [[f dq cnt ad cf lg bd cv tm] i pd]. destruct lg as [l1 l2 l3 l4 l5 l6 l7 l8 l9]. cbn [rxs r_logon logon_deque].
    unfold bind, modify, when. destruct (negb (aval a =? 0) && ow) eqn:E5.
    - destruct l9 as [|q0 q1]; [|reflexivity]. unfold assigned_rx, with_rx. rewrite E5. reflexivity.
    - destruct l9 as [|q0 q1]; [|reflexivity]. unfold assigned_rx, with_rx. rewrite E5. reflexivity.
  Qed.

  (** *** ENABLE *)

  Definition noted (cid sid : Z) (r : rx) : rx := set_sid_back sid (set_cid_back cid r).
  Definition forgotten (r : rx) : rx :=
    set_logon (Addr 0 (atyp (logon (r_addrs r))) (arev (logon (r_addrs r))))
      (set_logon_selected false (set_logon_assigned false (set_logon_store false r))).
  Definition restored (a : address) (r : rx) : rx :=
    set_logon a (set_logon_selected true (set_logon_assigned true (set_logon_store true r))).

  Definition recognized_b s (cid sid : Z) : bool :=
    (cid =? known_station s) && (0 <=? sid - known_session s) && (sid - known_session s <=? 4).
  Lemma recognized_spec : forall s cid sid, recognized_b s cid sid = true <-> recognized s cid sid.
  Proof. intros. unfold recognized_b, recognized. rewrite !andb_true_iff, Z.eqb_eq, !Z.leb_le. tauto. Qed.

  Definition group_no (g : address_group) : Z := match g with GAll => 0 | GLoco => 1 | GAcc => 2 | GNow => 3 end.
  Definition pause_for (g : address_group) (b : backoff) : backoff := match g with GNow => Mk_backoff 0 0 | _ => b end.

  Lemma u32_diff : forall a b, byte a -> byte b -> (u32 (a - b) <=? 4) = (0 <=? a - b) && (a - b <=? 4).
  Proof.
    intros a b Ha Hb. unfold byte, u32 in *.
    assert (0 <= a - b \/ a - b < 0) as [H|H] by lia.
    - rewrite Z.mod_small by lia. replace (0 <=? a - b) with true by (symmetry; lia). reflexivity.
    - replace ((a - b) mod 4294967296) with (a - b + 4294967296) by (rewrite <- (Z.mod_add _ 1) by lia; rewrite Z.mod_small; lia).
      replace (a - b + 4294967296 <=? 4) with false by (symmetry; lia). replace (0 <=? a - b) with false by (symmetry; lia). reflexivity.
  Qed.

  (** What comes after the exceptions: group, backoff and answer *)
  Definition answering (g : address_group) (cs : list Z) s : res (unit * st I * list event) :=
    match g with
    | GAcc => Ok (tt, s, [])
    | _ =>
      let b := pause_for g (logon_backoff (r_logon (rxs s))) in
      if bo_count b =? 0 then
        let '(n, i) := e_rand E (app s) in
        match logon_deque (r_logon (rxs s)) with
        | [] => Ok (tt, Mk_st (set_logon_deque [cs] (set_logon_backoff
                  (Mk_backoff (Z.min (bo_range b + 1) 3) (n mod (8 * 2 ^ bo_range b))) (rxs s))) i (pending s), [])
        | _ => UB AssertFailed
        end
      else Ok (tt, with_rx (set_logon_backoff (Mk_backoff (bo_range b) (bo_count b - 1))) s, [])
    end.

  Lemma test_run : forall s, pausing (logon_backoff (r_logon (rxs s))) ->
    test_backoff E (fun r => logon_backoff (r_logon r)) set_logon_backoff s =
    let b := logon_backoff (r_logon (rxs s)) in
    if bo_count b =? 0 then
      let '(n, i) := e_rand E (app s) in
      Ok (false, Mk_st (set_logon_backoff (Mk_backoff (Z.min (bo_range b + 1) 3) (n mod (8 * 2 ^ bo_range b))) (rxs s)) i (pending s), [])
    else Ok (true, with_rx (set_logon_backoff (Mk_backoff (bo_range b) (bo_count b - 1))) s, []).
  Proof.
    intros s Hp. unfold test_backoff. unfold bind at 1. cbn [get]. cbv zeta.
    set (b := logon_backoff (r_logon (rxs s))) in *. unfold bind at 1. destruct (bo_count b =? 0) eqn:Ec.
    - unfold rand. destruct (e_rand E (app s)) as [n i]. unfold backoff_test. rewrite Ec.
      replace (u8 (n mod Z.shiftl 8 (bo_range b))) with (n mod (8 * 2 ^ bo_range b)); [reflexivity|].
      destruct Hp as [Hr _]. rewrite Z.shiftl_mul_pow2 by lia.
      assert (2 ^ bo_range b <= 2 ^ 3) by (apply Z.pow_le_mono_r; lia).
      assert (0 < 2 ^ bo_range b) by (apply Z.pow_pos_nonneg; lia).
      pose proof (Z.mod_pos_bound n (8 * 2 ^ bo_range b)). unfold u8. rewrite (Z.mod_small _ 256); lia.
    - unfold ret. unfold backoff_test. rewrite Ec. reflexivity.
  Qed.

  Lemma answering_run : forall s g d0 d1 d2 d3 cs, did (r_conf (rxs s)) = [d0; d1; d2; d3] ->
    pausing (logon_backoff (r_logon (rxs s))) ->
    rbind (make_datagram_id B48 15
      (Z.lor (Z.lor (Z.lor (Z.lor (Z.shiftl manufacturer_id 32) (Z.shiftl d0 24)) (Z.shiftl d1 16)) (Z.shiftl d2 8)) d3))
      encode_datagram = Ok cs ->
    (match g with
     | GAcc => ret tt
     | _ =>
         bind (match g with
         | GNow => modify (fun r => set_logon_backoff (backoff_now (logon_backoff (r_logon r))) r)
         | _ => ret tt
         end) (fun _ =>
         bind (test_backoff E (fun r => logon_backoff (r_logon r)) set_logon_backoff) (fun b =>
         if b : bool then ret tt
         else
           bind get (fun r =>
           bind (if (length (logon_deque (r_logon r)) <? 1)%nat then ret tt else fail AssertFailed) (fun _ =>
           bind (at_ (did (r_conf r)) 0) (fun d0 => bind (at_ (did (r_conf r)) 1) (fun d1 =>
           bind (at_ (did (r_conf r)) 2) (fun d2 => bind (at_ (did (r_conf r)) 3) (fun d3 =>
           bind (lift (rbind (make_datagram_id B48 15
                         (Z.lor (Z.lor (Z.lor (Z.lor
                            (Z.shiftl manufacturer_id 32) (Z.shiftl d0 24))
                            (Z.shiftl d1 16)) (Z.shiftl d2 8)) d3))
                         encode_datagram)) (fun dg =>
           push_logon dg)))))))))
     end) s = answering g cs s.
  Proof.
    intros s g d0 d1 d2 d3 cs Hd Hp Hc.
    assert (K : forall s, did (r_conf (rxs s)) = [d0; d1; d2; d3] -> pausing (logon_backoff (r_logon (rxs s))) ->
      bind (test_backoff E (fun r => logon_backoff (r_logon r)) set_logon_backoff) (fun b : bool =>
         if b then ret tt
         else
           bind get (fun r =>
           bind (if (length (logon_deque (r_logon r)) <? 1)%nat then ret tt else fail AssertFailed) (fun _ =>
           bind (at_ (did (r_conf r)) 0) (fun d0 => bind (at_ (did (r_conf r)) 1) (fun d1 =>
           bind (at_ (did (r_conf r)) 2) (fun d2 => bind (at_ (did (r_conf r)) 3) (fun d3 =>
           bind (lift (rbind (make_datagram_id B48 15
                         (Z.lor (Z.lor (Z.lor (Z.lor
                            (Z.shiftl manufacturer_id 32) (Z.shiftl d0 24))
                            (Z.shiftl d1 16)) (Z.shiftl d2 8)) d3))
                         encode_datagram)) (fun dg =>
           push_logon dg)))))))) s = answering GAll cs s).
    { clear s Hd Hp. intros s Hd Hp. unfold answering, pause_for. cbv zeta. unfold bind at 1. rewrite (test_run s Hp). cbv zeta.
      set (b := logon_backoff (r_logon (rxs s))) in *. destruct (bo_count b =? 0); [|reflexivity].
      destruct (e_rand E (app s)) as [n i]. unfold bind at 1. cbn [get rxs].
      change (logon_deque (r_logon (set_logon_backoff (Mk_backoff (Z.min (bo_range b + 1) 3) (n mod (8 * 2 ^ bo_range b))) (rxs s))))
        with (logon_deque (r_logon (rxs s))).
      change (did (r_conf (set_logon_backoff (Mk_backoff (Z.min (bo_range b + 1) 3) (n mod (8 * 2 ^ bo_range b))) (rxs s))))
        with (did (r_conf (rxs s))). rewrite Hd.
      destruct (logon_deque (r_logon (rxs s))) as [|q0 q1] eqn:Eq; [|reflexivity].
      cbn [length Nat.ltb Nat.leb]. unfold at_. cbn [nth_error].
      unfold bind, ret. rewrite Hc. unfold lift, push_logon, bind, get, modify. cbn [rxs app pending].
      change (logon_deque (r_logon (set_logon_backoff (Mk_backoff (Z.min (bo_range b + 1) 3) (n mod (8 * 2 ^ bo_range b))) (rxs s))))
        with (logon_deque (r_logon (rxs s))).
      rewrite Eq. reflexivity. }
    destruct g; try reflexivity.
    - unfold bind at 1. cbn [ret]. rewrite (K s Hd Hp). destruct (answering GAll cs s) as [[[[] ?] ?]|]; reflexivity.
    - unfold bind at 1. cbn [ret]. rewrite (K s Hd Hp). unfold answering, pause_for. cbv zeta.
      destruct (bo_count _ =? 0); [|reflexivity]. destruct (e_rand E (app s)). destruct (logon_deque _); reflexivity.
    - unfold bind at 1. cbn [modify]. rewrite K; [|exact Hd|apply now_pausing].
      unfold answering, pause_for. cbv zeta. cbn [rxs app pending].
      change (logon_backoff (r_logon (set_logon_backoff (backoff_now (logon_backoff (r_logon (rxs s)))) (rxs s)))) with (Mk_backoff 0 0).
      cbn [bo_count bo_range]. change (0 =? 0) with true. cbn match. destruct (e_rand E (app s)).
      change (logon_deque (r_logon (set_logon_backoff (backoff_now (logon_backoff (r_logon (rxs s)))) (rxs s)))) with (logon_deque (r_logon (rxs s))).
      destruct (logon_deque (r_logon (rxs s))); reflexivity.
  Qed.

  Lemma enable_run : forall s g cid sid, sane (rxs s) -> byte sid -> exists cs,
    coded (base64 8 (enable_answer (own_id s))) cs /\
    logonEnable E g cid sid s =
    if negb (logon_on s) || is_selected s then Ok (tt, s, [])
    else if recognized_b s cid sid then
      let '(x, i1) := e_readCv E (app s) 65299 in
      let '(y, i2) := e_readCv E i1 65300 in
      Ok (tt, Mk_st (restored (address_of [u8 x; u8 y]) (noted cid sid (rxs s))) i2 (pending s),
          [EReadCv 65299 (u8 x); EReadCv 65300 (u8 y)])
    else answering g cs (with_rx (fun r => (if cid =? known_station s then forgotten else fun r => r) (noted cid sid r)) s).
  Proof.
    intros s g cid sid Hs Hsid. open_sane Hs. fold (own_id s) in Hdl, Hdb.
    assert (exists d0 d1 d2 d3, own_id s = [d0; d1; d2; d3]) as (d0 & d1 & d2 & d3 & Hd).
    { destruct (own_id s) as [|d0 [|d1 [|d2 [|d3 [|? ?]]]]]; try discriminate. do 4 eexists. reflexivity. }
    rewrite Hd in Hdb |- *.
    destruct (enable_datagram d0 d1 d2 d3) as (cs & Hc & Hcd & _);
      [repeat match goal with H : Forall _ (_ :: _) |- _ => inversion H; clear H; subst end; assumption..|].
    exists cs. split; [exact Hcd|]. unfold logonEnable. unfold bind at 1. cbn [get].
    fold (logon_on s) (is_selected s). destruct (negb (logon_on s) || is_selected s) eqn:E1.
    { reflexivity. }
    unfold bind at 1. cbn [modify]. unfold bind at 1. cbn [modify]. unfold bind at 1. cbn [get rxs app pending].
    change (set_sid_back sid (set_cid_back cid (rxs s))) with (noted cid sid (rxs s)).
    change (cid_back (r_logon (noted cid sid (rxs s)))) with cid.
    change (cid_front (r_logon (noted cid sid (rxs s)))) with (known_station s).
    change (sid_back (r_logon (noted cid sid (rxs s)))) with sid.
    change (sid_front (r_logon (noted cid sid (rxs s)))) with (known_session s).
    unfold recognized_b. destruct (cid =? known_station s) eqn:E2; cbn [andb].
    - cbv zeta. rewrite u32_diff by assumption.
      destruct ((0 <=? sid - known_session s) && (sid - known_session s <=? 4)) eqn:E3.
      + unfold bind at 1. unfold bind at 1. cbn [modify]. unfold bind at 1. cbn [modify]. unfold bind at 1. cbn [modify].
        unfold bind at 1. unfold readCv. cbn [app rxs pending]. destruct (e_readCv E (app s) 65299) as [x i1].
        unfold bind at 1. cbn [app rxs pending]. destruct (e_readCv E i1 65300) as [y i2].
        rewrite decode_address_of; [reflexivity| |cbn [length]; lia].
        apply Forall_cons; [apply u8_byte|apply Forall_cons; [apply u8_byte|apply Forall_nil]].
      + unfold bind at 1. unfold bind at 1. cbn [modify]. unfold bind at 1. cbn [modify]. unfold bind at 1. cbn [modify].
        unfold bind at 1. cbn [modify ret rxs app pending].
        match goal with |- context [match g with GAll => _ | GLoco => _ | GAcc => _ | GNow => _ end ?x] =>
          change x with (with_rx (fun r => forgotten (noted cid sid r)) s) end.
        rewrite (answering_run _ g d0 d1 d2 d3 cs) by (first [exact Hd|exact Hlb|exact Hc]).
        destruct (answering g cs _) as [[[[] ?] ?]|]; reflexivity.
    - unfold bind at 1. cbn [ret].
      match goal with |- context [match g with GAll => _ | GLoco => _ | GAcc => _ | GNow => _ end ?x] =>
        change x with (with_rx (fun r => noted cid sid r) s) end.
      rewrite (answering_run _ g d0 d1 d2 d3 cs) by (first [exact Hd|exact Hlb|exact Hc]).
      destruct (answering g cs _) as [[[[] ?] ?]|]; reflexivity.
  Qed.
End Logon.
