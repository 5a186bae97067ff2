(** CV access by packets: answers, lock, service mode *)
From Verif Require Import Prelude Address Instruction Datagram ZBits SpecCodec RxState Rx CodecProofs CodecProofs2 RxLogic SpecRx RxBitProofs
  RxBitProofs3 RxBitProofs4 SpecExec ExecProofs SpecConf ConfProofs ConfProofs2 SpecCv CvProofs CvProofs2.

Lemma make12_coded : forall v, byte v -> exists d, rbind (make_datagram_id B12 0 v) encode_datagram = Ok d /\ coded (base64 2 v) d.
Proof.
  intros v Hv. unfold byte in Hv. rewrite (make_datagram_id_spec B12 0 v) by (cbn; lia). cbn [rbind].
  change (0 * 2 ^ id_bits B12 + v) with v. change (datagram_size B12) with 2%nat.
  destruct (encode_datagram_spec (base64 2 v)) as (cs & H1 & H2 & _).
  { cbn [base64]. repeat (apply Forall_cons; [unfold digit; apply Z.mod_pos_bound; lia|]). apply Forall_nil. }
  exists cs. auto.
Qed.

Section Answer.
  Context {I : Type} (E : Env I).
  Implicit Types s : st I.

  (** Answer of a byte in operations mode *)
  Lemma pom_ok : forall v s, byte v -> exists s', pom v s = Ok (tt, s', []) /\
    app s' = app s /\ bystanders s' = bystanders s /\ configuration s' = configuration s /\ r_deque (rxs s') = r_deque (rxs s) /\
    counter (rxs s') = counter (rxs s) /\
    if railcom_on s then answers s' v else s' = s.
  Proof.
    intros v s Hv. unfold pom, railcom_on. rewrite bind_get.
    destruct (ch2_data_enabled (r_conf (rxs s))); cbn [negb].
    - destruct (make12_coded v Hv) as (d & H1 & H2). rewrite H1, bind_lift. eexists. split; [reflexivity|].
      repeat (split; [reflexivity|]). exists d. split; [reflexivity|exact H2].
    - exists s. repeat (split; [reflexivity|]). reflexivity.
  Qed.

  Variables (m : I -> Z -> Z) (Hm : cv_memory E m).

  Lemma verify_ok : forall a v s, in_service s = false -> locked s = false -> exists s',
    cvVerify E a v s = Ok (tt, s', [EReadCvByte a v (m (app s') a)]) /\
    m (app s') = m (app s) /\ bystanders s' = bystanders s /\ configuration s' = configuration s /\ r_deque (rxs s') = r_deque (rxs s) /\
    counter (rxs s') = counter (rxs s) /\
    if railcom_on s then answers s' (m (app s') a) else answer_queue s' = answer_queue s.
  Proof.
    intros a v s Hsv Hlk. unfold cvVerify. rewrite bind_get. unfold locked in Hlk. rewrite Hlk.
    rewrite (proj1 (mem_sync E m Hm)). unfold bind at 1. unfold readCvByte.
    pose proof (mem_readByte E m Hm (app s) a v) as [K1 K2].
    destruct (e_readCvByte E (app s) a v) as [w i]. cbn [fst snd] in K1, K2. rewrite K1.
    unfold cb_byte. rewrite bind_get. cbn [rxs]. unfold in_service in Hsv. rewrite Hsv. cbn [negb].
    destruct (pom_ok (m (app s) a) (Mk_st (rxs s) i (pending s)) (mem_byte E m Hm _ _)) as (s' & H1 & H2 & H3 & H4 & H5 & H6 & H7).
    rewrite H1. exists s'. cbn [List.app]. rewrite H2. cbn [app]. rewrite K2. split; [reflexivity|]. split; [reflexivity|].
    split; [exact H3|]. split; [exact H4|]. split; [exact H5|]. split; [exact H6|].
    unfold railcom_on in *. cbn [rxs] in H7. destruct (ch2_data_enabled (r_conf (rxs s))); [exact H7|].
    rewrite H7. reflexivity.
  Qed.

  Lemma verifyBit_ok : forall a v k s, 0 <= k < 8 -> in_service s = false -> locked s = false -> exists s',
    cvVerifyBit E a v k s = Ok (tt, s', [EReadCvBit a v k (bit_of (m (app s') a) k)]) /\
    m (app s') = m (app s) /\ bystanders s' = bystanders s /\ configuration s' = configuration s /\ r_deque (rxs s') = r_deque (rxs s) /\
    counter (rxs s') = counter (rxs s) /\
    if railcom_on s then answers s' (Z.b2z (bit_of (m (app s') a) k)) else answer_queue s' = answer_queue s.
  Proof.
    intros a v k s Hk Hsv Hlk. unfold cvVerifyBit. rewrite bind_get. unfold locked in Hlk. rewrite Hlk.
    rewrite (proj1 (mem_sync E m Hm)). unfold bind at 1. unfold readCvBit.
    pose proof (mem_readBit E m Hm (app s) a v k Hk) as [K1 K2].
    destruct (e_readCvBit E (app s) a v k) as [w i]. cbn [fst snd] in K1, K2. rewrite K1.
    unfold cb_bit. rewrite bind_get. cbn [rxs]. unfold in_service in Hsv. rewrite Hsv. cbn [negb].
    destruct (pom_ok (Z.b2z (bit_of (m (app s) a) k)) (Mk_st (rxs s) i (pending s))) as (s' & H1 & H2 & H3 & H4 & H5 & H6 & H7).
    { unfold byte. destruct (bit_of _ _); cbn; lia. }
    rewrite H1. exists s'. cbn [List.app]. rewrite H2. cbn [app]. rewrite K2. split; [reflexivity|]. split; [reflexivity|].
    split; [exact H3|]. split; [exact H4|]. split; [exact H5|]. split; [exact H6|].
    unfold railcom_on in *. cbn [rxs] in H7. destruct (ch2_data_enabled (r_conf (rxs s))); [exact H7|].
    rewrite H7. reflexivity.
  Qed.

  Lemma hk_bystanders : forall s s1, hk (rxs s1) = hk (rxs s) -> pending s1 = pending s ->
    bystanders s1 = bystanders s /\ configuration s1 = configuration s /\ answer_queue s1 = answer_queue s.
  Proof.
    intros s s1 H P. unfold hk in H. unfold bystanders, configuration, answer_queue. repeat split; congruence.
  Qed.

  (** Verification in operations mode *)
  Lemma verify_answered : forall s p q b0 b1 b2 x, ready s p q -> long_form s p b0 b1 b2 -> locked s = false ->
    request b0 b1 b2 = [x] -> is_writing x = false ->
    exists s' e1 e r, execute E s = Ok (true, s', e1 ++ [e]) /\ storing s e1 /\
      bystanders s' = bystanders s /\ configuration s' = configuration s /\ r_deque (rxs s') = q /\
      match x with
      | Check a v => e = EReadCvByte a v r /\ r = m (app s') a
      | CheckBit a v k => e = EReadCvBit a v k (bit_of (m (app s') a) k) /\ r = Z.b2z (bit_of (m (app s') a) k)
      | _ => False
      end /\
      if railcom_on s then answers s' r else answer_queue s' = [] \/ answer_queue s' = answer_queue s.
  Proof.
    intros s p q b0 b1 b2 x Hr (Hsv & Hb & Hf & Hrange & n & t & Ha & Hc & Hbody) Hlk Hreq Hw.
    assert (3 <= length p)%nat as Hl by (pose proof (body_length p) as L; rewrite Hbody in L; cbn [length] in L; lia).
    destruct (own_command E s p q n Hr Hsv Hb Hl Hf Ha) as (s1 & e1 & Hk & Hp & Hs & He). rewrite He. clear He.
    pose proof (body_bytes p Hb) as Hbb. rewrite Hbody in Hbb |- *.
    inversion Hbb as [|? ? H0 Hb']; subst. inversion Hb' as [|? ? H1 Hb'']; subst. inversion Hb'' as [|? ? H2 _]; subst.
    unfold dispatch. rewrite decode_instruction_spec, bind_lift, (class_of b0 14 15 ICvLong H0 eq_refl) by (assumption || lia).
    assert (r_deque (rxs s1) = p :: q) as Hd1 by (unfold hk in Hk; destruct Hr; congruence).
    assert (r_addrs (rxs s1) = r_addrs (rxs s)) as Had by (unfold hk in Hk; congruence).
    assert (r_conf (rxs s1) = r_conf (rxs s)) as Hcf by (unfold hk in Hk; congruence).
    assert (r_cv (rxs s1) = r_cv (rxs s)) as Hcv by (unfold hk in Hk; congruence).
    destruct (hk_bystanders s s1 Hk Hp) as (By1 & Cf1 & Aq1).
    unfold cvLong. rewrite bind_get.
    assert (negb (n =? 0) && (n =? aval (consist (r_addrs (rxs s1)))) = false) as ->.
    { destruct (negb (n =? 0) && (n =? aval (consist (r_addrs (rxs s1))))) eqn:En; [|reflexivity]. exfalso. apply Hc.
      apply andb_true_iff in En. destruct En as [E1 E2]. apply negb_true_iff, Z.eqb_neq in E1.
      apply Z.eqb_eq in E2. rewrite Had in E2. split; assumption. }
    destruct (count_spec s1 p q Hd1) as (s2 & k & Hcount & Hkk & Hcnt & Hconf2 & Haddr2 & Hby2 & Hdq2 & Happ2 & Haq2).
    unfold bind at 1. rewrite Hcount. rewrite bind_get.
    assert (in_service s2 = false) as Hsv2 by (unfold bystanders in Hby2, By1; unfold in_service in *; congruence).
    assert (locked s2 = false) as Hlk2 by (unfold locked in *; congruence).
    unfold in_service in Hsv2. rewrite Hsv2. cbn [andb]. cbn [at_ nth_error]. rewrite !bind_ret. cbv zeta.
    rewrite request_spec in Hreq by assumption. cbv zeta in Hreq.
    set (a := Z.lor (Z.shiftl (Z.land b0 3) 8) b1) in *. set (kk := Z.land (Z.shiftr b0 2) 3) in *.
    destruct (kk =? 0); [discriminate|].
    assert (Hrc : railcom_on s2 = railcom_on s) by (unfold railcom_on; congruence).
    assert (Haq : answer_queue s2 = [] \/ answer_queue s2 = answer_queue s).
    { rewrite Haq2, Aq1. destruct (list_eqb _ _); auto. }
    assert (Hcf2 : configuration s2 = configuration s) by (unfold configuration in *; congruence).
    destruct (kk =? 1).
    - rewrite bind_ret. assert (x = Check a b2) as -> by congruence.
      destruct (verify_ok a b2 s2 Hsv2 Hlk2) as (s3 & V1 & V2 & V3 & V4 & V5 & V6 & V7). rewrite V1.
      do 4 eexists. split; [reflexivity|]. split; [exact Hs|]. split; [transitivity (bystanders s3); [reflexivity|congruence]|].
      split; [transitivity (configuration s3); [reflexivity|congruence]|].
      split; [reflexivity|]. split; [split; reflexivity|]. rewrite <- Hrc.
      destruct (railcom_on s2); [exact V7|]. change (answer_queue (pop q s3)) with (answer_queue s3). rewrite V7. exact Haq.
    - destruct (kk =? 3); [assert (x = Store a b2) as -> by congruence; discriminate|].
      rewrite bind_ret. destruct (Z.testbit b2 4); cbn [negb]; [assert (x = StoreBit a (Z.testbit b2 3) (Z.land b2 7)) as -> by congruence; discriminate|].
      assert (x = CheckBit a (Z.testbit b2 3) (Z.land b2 7)) as -> by congruence.
      destruct (verifyBit_ok a (Z.testbit b2 3) (Z.land b2 7) s2 ltac:(rewrite land_7; apply Z.mod_pos_bound; lia) Hsv2 Hlk2) as (s3 & V1 & V2 & V3 & V4 & V5 & V6 & V7). rewrite V1.
      do 4 eexists. split; [reflexivity|]. split; [exact Hs|]. split; [transitivity (bystanders s3); [reflexivity|congruence]|].
      split; [transitivity (configuration s3); [reflexivity|congruence]|].
      split; [reflexivity|]. split; [split; reflexivity|]. rewrite <- Hrc.
      destruct (railcom_on s2); [exact V7|]. change (answer_queue (pop q s3)) with (answer_queue s3). rewrite V7. exact Haq.
  Qed.
End Answer.

Section Async.
  Context {I : Type} (E : Env I).
  Implicit Types s : st I.

  (** The answer of an asynchronous application *)
  Lemma callback_answered : forall s i b v, in_service s = false -> railcom_on s = true ->
    nth_error (pending s) i = Some (PendByte b) -> byte v ->
    exists s', step E (OCallback i v) s = Ok (false, s', []) /\ answers s' v /\
      bystanders s' = bystanders s /\ configuration s' = configuration s /\ r_deque (rxs s') = r_deque (rxs s).
  Proof.
    intros s i b v Hsv Hrc Hn Hv. cbn [step]. rewrite Hn. unfold bind. cbn [run_cb]. unfold cb_byte.
    rewrite bind_get. unfold in_service in Hsv. rewrite Hsv. cbn [negb].
    destruct (pom_ok (u8 v) s (u8_byte v)) as (s' & H1 & H2 & H3 & H4 & H5 & H6 & H7). rewrite H1.
    rewrite Hrc in H7. exists s'. cbn. rewrite (u8_id v Hv) in H7. auto.
  Qed.
End Async.

Section Consist.
  Context {I : Type} (E : Env I).
  Implicit Types s : st I.

  Lemma consist_no_access : forall s p q n b0 t, ready s p q -> in_service s = false -> Forall byte p -> (3 <= length p)%nat ->
    for_locos p -> acts_as (r_addrs (rxs s)) p n -> by_consist s n -> body_of p = b0 :: t -> 0xE0 <= b0 ->
    reacts E s q true [].
  Proof.
    intros s p q n b0 t Hr Hsv Hb Hl Hf Ha [Hc1 Hc2] Hbody Hge.
    apply (own_reacts E s p q n []); try assumption. intros s1 Had Hcf.
    pose proof (body_bytes p Hb) as Hbb. rewrite Hbody in Hbb |- *. assert (byte b0) as H0 by (inversion Hbb; assumption).
    unfold says, dispatch. rewrite decode_instruction_spec, bind_lift by assumption. cbn [bumps].
    assert (Hcon : negb (n =? 0) && (n =? aval (consist (r_addrs (rxs s1)))) = true).
    { rewrite Had, <- Hc2, Z.eqb_refl, (proj2 (Z.eqb_neq _ _) Hc1). reflexivity. }
    assert (nibble_class (b0 / 16) = ICvLong \/ nibble_class (b0 / 16) = ICvShort) as [Hx|Hx].
    { unfold byte in H0. destruct (Z_lt_dec b0 0xF0) as [H1|H1]; [left|right].
      - apply (class_of b0 14 15); [exact H0|reflexivity|lia].
      - apply (class_of b0 15 16); [exact H0|reflexivity|lia]. }
    - rewrite Hx. unfold cvLong. rewrite bind_get, Hcon. reflexivity.
    - rewrite Hx. unfold cvShort. rewrite bind_get, Hcon. reflexivity.
  Qed.
End Consist.
