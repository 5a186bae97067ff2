(** CV access by packets: generated packets, verification in service mode *)
From Verif Require Import Prelude Address Instruction Datagram ZBits SpecCodec Packets RxState Rx CodecProofs CodecProofs2 RxLogic SpecRx RxBitProofs
  RxBitProofs3 RxBitProofs4 SpecExec ExecProofs SpecConf ConfProofs ConfProofs2 SpecCv CvProofs CvProofs2 CvProofs3 CvProofs4 CvProofs5 CvProofs6 CvProofs7.
Local Ltac Zify.zify_post_hook ::= Z.div_mod_to_equations.

(** ** Generated packets *)

Lemma request_verify : forall op cv b, In op [0xE4; 0x74] -> 0 <= cv < 1024 -> request (op + cv / 256) (cv mod 256) b = [Check cv b].
Proof.
  intros op cv b Ho Hc. unfold request.
  assert ((op + cv / 256) / 4 mod 4 = 1) as -> by (repeat destruct Ho as [<-|Ho]; try contradiction; lia).
  f_equal. f_equal. repeat destruct Ho as [<-|Ho]; try contradiction; lia.
Qed.
Lemma request_write : forall op cv b, In op [0xEC; 0x7C] -> 0 <= cv < 1024 -> request (op + cv / 256) (cv mod 256) b = [Store cv b].
Proof.
  intros op cv b Ho Hc. unfold request.
  assert ((op + cv / 256) / 4 mod 4 = 3) as -> by (repeat destruct Ho as [<-|Ho]; try contradiction; lia).
  f_equal. f_equal. repeat destruct Ho as [<-|Ho]; try contradiction; lia.
Qed.
Lemma request_bit : forall op cv w bit pos, In op [0xE8; 0x78] -> 0 <= cv < 1024 -> 0 <= pos < 8 ->
  request (op + cv / 256) (cv mod 256) (0xE0 + 16 * Z.b2z w + 8 * Z.b2z bit + pos) =
  [if w then StoreBit cv bit pos else CheckBit cv bit pos].
Proof.
  intros op cv w bit pos Ho Hc Hp. unfold request.
  assert ((op + cv / 256) / 4 mod 4 = 2) as -> by (repeat destruct Ho as [<-|Ho]; try contradiction; lia).
  assert (256 * ((op + cv / 256) mod 4) + cv mod 256 = cv) as -> by (repeat destruct Ho as [<-|Ho]; try contradiction; lia).
  assert (forall x k, bit_of x k = Z.odd (x / 2 ^ k)) as Hb by reflexivity. rewrite !Hb. change (2 ^ 3) with 8. change (2 ^ 4) with 16.
  assert ((0xE0 + 16 * Z.b2z w + 8 * Z.b2z bit + pos) mod 8 = pos) as -> by (destruct w, bit; cbn [Z.b2z]; lia).
  assert ((0xE0 + 16 * Z.b2z w + 8 * Z.b2z bit + pos) / 16 = 14 + Z.b2z w) as -> by (destruct w, bit; cbn [Z.b2z]; lia).
  assert ((0xE0 + 16 * Z.b2z w + 8 * Z.b2z bit + pos) / 8 = 28 + 2 * Z.b2z w + Z.b2z bit) as -> by (destruct w, bit; cbn [Z.b2z]; lia).
  destruct w, bit; reflexivity.
Qed.

Lemma built_body : forall v b0 b1 b2, 0 <= v <= 10239 ->
  exists c, body_of (closed (wire_head v ++ [b0; b1; b2])) = [b0; b1; b2; c] /\ for_locos (closed (wire_head v ++ [b0; b1; b2])) /\
    aval (address_of (closed (wire_head v ++ [b0; b1; b2]))) = v.
Proof.
  intros v b0 b1 b2 Hv. unfold closed. set (x := xor_all _). exists x. unfold wire_head.
  destruct (Z.leb_spec v 127); cbn [List.app]; unfold body_of, for_locos, address_of, first_byte_class.
  - destruct (Z.eqb_spec v 0) as [->|]; [cbn; auto|].
    replace (v <? 128) with true by lia. cbn. auto.
  - replace (192 + v / 256 =? 0) with false by lia. replace (192 + v / 256 <? 128) with false by lia.
    replace (192 + v / 256 <? 192) with false by lia. replace (192 + v / 256 <? 232) with true by lia.
    cbn [atyp aval skipn hd]. split; [reflexivity|]. split; [cbn; auto|]. lia.
Qed.

(** What the generators for the operating mode ask for *)
Lemma built_request : forall v cv b bit pos p, 0 <= v <= 10239 -> 0 <= cv < 1024 -> byte b -> 0 <= pos < 8 ->
  forall x,
  (make_cv_access_long_verify_packet (loco v) cv b = Ok p /\ x = Check cv b) \/
  (make_cv_access_long_write_packet (loco v) cv b = Ok p /\ x = Store cv b) \/
  (make_cv_access_long_verify_bit_packet (loco v) cv bit pos = Ok p /\ x = CheckBit cv bit pos) \/
  (make_cv_access_long_write_bit_packet (loco v) cv bit pos = Ok p /\ x = StoreBit cv bit pos) ->
  exists b0 b1 b2 c, body_of p = [b0; b1; b2; c] /\ for_locos p /\ aval (address_of p) = v /\ 0xE0 <= b0 < 0xF0 /\ request b0 b1 b2 = [x].
Proof.
  intros v cv b bit pos p Hv Hcv Hb Hpos x Hx. pose proof (encode_loco v Hv) as He.
  assert (Forall byte (wire_head v)) as Hh by (unfold wire_head, byte; destruct (Z.leb_spec v 127); repeat constructor; lia).
  assert (length (wire_head v) <= 2)%nat as Hl by (unfold wire_head; destruct (v <=? 127); cbn; lia).
  assert (K : forall b0 b1 b2, Ok (closed (wire_head v ++ [b0; b1; b2])) = Ok p -> 0xE0 <= b0 < 0xF0 -> request b0 b1 b2 = [x] ->
    exists b0 b1 b2 c, body_of p = [b0; b1; b2; c] /\ for_locos p /\ aval (address_of p) = v /\ 0xE0 <= b0 < 0xF0 /\ request b0 b1 b2 = [x]).
  { intros b0 b1 b2 Hp Hr Hq. assert (p = closed (wire_head v ++ [b0; b1; b2])) as -> by congruence.
    destruct (built_body v b0 b1 b2 Hv) as (c & A1 & A2 & A3). exists b0, b1, b2, c. auto. }
  destruct Hx as [[Hx ->]|[[Hx ->]|[[Hx ->]|[Hx ->]]]].
  - rewrite (gen_cv_verify _ _ He Hh Hl cv b Hcv Hb) in Hx. apply (K _ _ _ Hx); [lia|apply request_verify; cbn; auto].
  - rewrite (gen_cv_write _ _ He Hh Hl cv b Hcv Hb) in Hx. apply (K _ _ _ Hx); [lia|apply request_write; cbn; auto].
  - rewrite (gen_cv_verify_bit _ _ He Hh Hl cv bit pos Hcv Hpos) in Hx. apply (K _ _ _ Hx); [lia|].
    exact (request_bit 0xE8 cv false bit pos ltac:(cbn; auto) Hcv Hpos).
  - rewrite (gen_cv_write_bit _ _ He Hh Hl cv bit pos Hcv Hpos) in Hx. apply (K _ _ _ Hx); [lia|].
    exact (request_bit 0xE8 cv true bit pos ltac:(cbn; auto) Hcv Hpos).
Qed.

Section Again.
  Context {I : Type} (E : Env I).
  Implicit Types s : st I.
  Variables (m : I -> Z -> Z) (Hm : cv_memory E m).

  Lemma verify_srv : forall a v s, in_service s = true -> locked s = false -> exists s',
    cvVerify E a v s = Ok (tt, s', EReadCvByte a v (m (app s) a) :: if v =? m (app s) a then [EServiceAck] else []) /\
    m (app s') = m (app s).
  Proof.
    intros a v s Hsv Hlk. unfold cvVerify. rewrite bind_get. unfold locked in Hlk. rewrite Hlk.
    rewrite (proj1 (mem_sync E m Hm)). unfold bind at 1. unfold readCvByte.
    pose proof (mem_readByte E m Hm (app s) a v) as [K1 K2].
    destruct (e_readCvByte E (app s) a v) as [w i]. cbn [fst snd] in K1, K2. rewrite K1.
    unfold cb_byte. rewrite bind_get. cbn [rxs]. unfold in_service in Hsv. rewrite Hsv. cbn [negb].
    destruct (v =? m (app s) a).
    - eexists. split; [reflexivity|]. cbn [app]. rewrite (mem_hook E m Hm). exact K2.
    - eexists. split; [reflexivity|]. exact K2.
  Qed.
  Lemma verifyBit_srv : forall a v k s, 0 <= k < 8 -> in_service s = true -> locked s = false -> exists s',
    cvVerifyBit E a v k s = Ok (tt, s', EReadCvBit a v k (bit_of (m (app s) a) k) ::
      if Bool.eqb v (bit_of (m (app s) a) k) then [EServiceAck] else []) /\
    m (app s') = m (app s).
  Proof.
    intros a v k s Hk Hsv Hlk. unfold cvVerifyBit. rewrite bind_get. unfold locked in Hlk. rewrite Hlk.
    rewrite (proj1 (mem_sync E m Hm)). unfold bind at 1. unfold readCvBit.
    pose proof (mem_readBit E m Hm (app s) a v k Hk) as [K1 K2].
    destruct (e_readCvBit E (app s) a v k) as [w i]. cbn [fst snd] in K1, K2. rewrite K1.
    unfold cb_bit. rewrite bind_get. cbn [rxs]. unfold in_service in Hsv. rewrite Hsv. cbn [negb].
    destruct (Bool.eqb v (bit_of (m (app s) a) k)).
    - eexists. split; [reflexivity|]. cbn [app]. rewrite (mem_hook E m Hm). exact K2.
    - eexists. split; [reflexivity|]. exact K2.
  Qed.

  (** The value the packet states is the one stored *)
  Lemma second_verify : forall s b0 b1 b2 c q x, ready s [b0; b1; b2; c] q -> in_service s = true -> Forall byte [b0; b1; b2; c] ->
    0x70 <= b0 < 0x80 -> locked s = false -> request b0 b1 b2 = [x] -> is_writing x = false ->
    last_cv_packet s = [b0; b1; b2; c] -> cv_packet_count s = 1%nat ->
    exists s' e1 e2, execute E s = Ok (true, s', e1 ++ e2) /\ storing s e1 /\
      match x with
      | Check a v => e2 = EReadCvByte a v (m (app s') a) :: if v =? m (app s') a then [EServiceAck] else []
      | CheckBit a v k => e2 = EReadCvBit a v k (bit_of (m (app s') a) k) :: if Bool.eqb v (bit_of (m (app s') a) k) then [EServiceAck] else []
      | _ => False
      end.
  Proof.
    intros s b0 b1 b2 c q x Hr Hsv Hb H7 Hlk Hreq Hw Hlast Hcnt0. set (p := [b0; b1; b2; c]) in *.
    destruct (execute_split E s p q Hr) as (s1 & e1 & Hk & Hp & Hs & He). rewrite He. clear He.
    assert (r_deque (rxs s1) = p :: q) as Hd1 by (unfold hk in Hk; destruct Hr; congruence).
    assert (in_service s1 = true) as Hsv1 by (unfold hk in Hk; unfold in_service in *; congruence).
    assert (last_cv_packet s1 = p) as Hlast1 by (unfold hk in Hk; unfold last_cv_packet in *; congruence).
    assert (cv_packet_count s1 = 1%nat) as Hc1 by (unfold hk in Hk; unfold cv_packet_count in *; congruence).
    assert (locked s1 = false) as Hlk1 by (unfold hk in Hk; unfold locked in *; congruence).
    assert (byte b0 /\ byte b1 /\ byte b2) as (H0 & H1 & H2).
    { inversion Hb as [|? ? H0 Hb']; subst. inversion Hb' as [|? ? H1 Hb'']; subst. inversion Hb'' as [|? ? H2 _]; subst. auto. }
    assert (exists s3 e2, cvLong E 0 p s1 = Ok (tt, s3, e2) /\
      match x with
      | Check a v => e2 = EReadCvByte a v (m (app s3) a) :: if v =? m (app s3) a then [EServiceAck] else []
      | CheckBit a v k => e2 = EReadCvBit a v k (bit_of (m (app s3) a) k) :: if Bool.eqb v (bit_of (m (app s3) a) k) then [EServiceAck] else []
      | _ => False
      end) as (s3 & e2 & Hl & Hx).
    { unfold cvLong. rewrite bind_get. cbn [Z.eqb negb andb].
      destruct (count_spec s1 p q Hd1) as (s2 & k & Hcount & Hkk & Hcnt & Hconf2 & Haddr2 & Hby2 & Hdq2 & Happ2 & _).
      unfold bind at 1. rewrite Hcount. rewrite bind_get.
      assert (in_service s2 = true) as Hsv2 by (unfold bystanders in Hby2; unfold in_service in *; congruence).
      assert (locked s2 = false) as Hlk2 by (unfold locked in *; congruence).
      assert (k = 2%nat) as -> by (destruct Hkk as [[_ ->]|[X _]]; [rewrite Hc1; reflexivity|congruence]).
      destruct Hcnt as [_ Hc2]. unfold cv_packet_count in Hc2. rewrite Hc2.
      change (service_mode (r_cv (rxs s2))) with (in_service s2). rewrite Hsv2. cbn [andb Nat.eqb negb].
      cbn [p at_ nth_error]. rewrite !bind_ret. cbv zeta.
      rewrite request_spec in Hreq by assumption. cbv zeta in Hreq.
      set (a := Z.lor (Z.shiftl (Z.land b0 3) 8) b1) in *. set (kk := Z.land (Z.shiftr b0 2) 3) in *.
      destruct (kk =? 0); [discriminate|].
      destruct (kk =? 1).
      - rewrite bind_ret. assert (x = Check a b2) as -> by congruence.
        destruct (verify_srv a b2 s2 Hsv2 Hlk2) as (s3 & V1 & V2). rewrite V1.
        do 2 eexists. split; [reflexivity|]. rewrite V2. reflexivity.
      - destruct (kk =? 3); [assert (x = Store a b2) as -> by congruence; discriminate|].
        rewrite bind_ret. destruct (Z.testbit b2 4); cbn [negb]; [assert (x = StoreBit a (Z.testbit b2 3) (Z.land b2 7)) as -> by congruence; discriminate|].
        assert (x = CheckBit a (Z.testbit b2 3) (Z.land b2 7)) as -> by congruence.
        destruct (verifyBit_srv a (Z.testbit b2 3) (Z.land b2 7) s2 ltac:(rewrite land_7; apply Z.mod_pos_bound; lia) Hsv2 Hlk2) as (s3 & V1 & V2).
        rewrite V1. do 2 eexists. split; [reflexivity|]. rewrite V2. reflexivity. }
    unfold executeCommand. rewrite bind_get. unfold in_service in Hsv1. rewrite Hsv1.
    unfold executeService. rewrite bind_get, Hd1, bind_ret. cbn [p at_ nth_error]. rewrite bind_ret. fold p.
    rewrite land_F0 by exact H0. replace (b0 =? 0) with false by lia. replace (16 * (b0 / 16) =? 112) with true by lia.
    cbn [negb]. change (length p =? 3)%nat with false. change (length p =? 4)%nat with true. cbn iota.
    unfold bind. rewrite Hl. unfold ret. rewrite app_nil_r. exists (pop q s3), e1, e2. split; [reflexivity|]. split; [exact Hs|]. exact Hx.
  Qed.

  (** A verification that is not the last CV packet executed is answered at its second
      execution *)
  Lemma fresh_verify : forall s b0 b1 b2 c q b s1 es1 q1 x, reached E s -> ready s [b0; b1; b2; c] q -> in_service s = true ->
    0x70 <= b0 < 0x80 -> request b0 b1 b2 = [x] -> is_writing x = false ->
    last_cv_packet s <> [b0; b1; b2; c] -> execute E s = Ok (b, s1, es1) ->
    ready s1 [b0; b1; b2; c] q1 -> locked s1 = false ->
    exists s' e1 e2, execute E s1 = Ok (true, s', e1 ++ e2) /\ storing s1 e1 /\
      match x with
      | Check a v => e2 = EReadCvByte a v (m (app s') a) :: if v =? m (app s') a then [EServiceAck] else []
      | CheckBit a v k => e2 = EReadCvBit a v k (bit_of (m (app s') a) k) :: if Bool.eqb v (bit_of (m (app s') a) k) then [EServiceAck] else []
      | _ => False
      end.
  Proof.
    intros s b0 b1 b2 c q b s1 es1 q1 x Hre Hr Hsv H7 Hreq Hw Hlast He Hr1 Hlk.
    destruct (reached_ready E s _ _ Hre Hr) as [Hb _].
    destruct (direct_step E (mem_sync E m Hm) s b0 b1 b2 c q b s1 es1 Hre Hsv Hr H7 He) as (k & e1 & e2 & _ & _ & Hk & [C1 C2] & _).
    destruct Hk as [[X _]|[_ ->]]; [congruence|].
    assert (in_service s1 = true) as Hsv1.
    { destruct (mode_step E s OExecute b s1 es1 Hre He) as [(_ & _ & X & _)|[(_ & (p' & q' & Hr' & Hlv) & _)|(_ & X & _)]]; [exact X| |congruence].
      rewrite (ready_fun _ _ _ _ _ Hr Hr') in Hlv. destruct Hlv as (_ & _ & X). cbn [hd] in X. contradiction. }
    exact (second_verify s1 b0 b1 b2 c q1 x Hr1 Hsv1 Hb H7 Hlk Hreq Hw C1 C2).
  Qed.
End Again.

Section Rest.
  Context {I : Type} (E : Env I).
  Implicit Types s : st I.

  (** Service mode is entered by the reset packet alone, unless the decoder has a logon
      address and no address of its own *)
  Lemma entered_by : forall s o b s' es, reached E s -> step E o s = Ok (b, s', es) ->
    in_service s = false -> in_service s' = true ->
    o = OExecute /\ mode_calls es = [true] /\ exists p q, ready s p q /\ for_locos p /\ hd 1 (body_of p) = 0 /\
      (aval (address_of p) = 0 \/ aval (primary (r_addrs (rxs s))) = 0 /\ loco_number (logon (r_addrs (rxs s))) (aval (address_of p))).
  Proof.
    intros s o b s' es Hre H H1 H2.
    destruct (mode_step E s o b s' es Hre H) as [(Ho & (p & q & Hr & _ & Hf & Ha & Hh) & _ & Hm)|[(_ & _ & X & _)|(_ & X & _)]]; [|congruence|congruence].
    split; [exact Ho|]. split; [exact Hm|]. exists p, q. split; [exact Hr|]. split; [exact Hf|]. split; [exact Hh|].
    inversion Ha as [A|n N A L|n N A L]; subst; [left; exact A|contradiction|right; split; [congruence|exact L]].
  Qed.

  Lemma short_after_init : forall m, cv_memory E m -> forall os1 os2 s0 s es0 p q b0 b1 b2 b s' es,
    run E (os1 ++ OInit :: os2) s0 = Ok (tt, s, es0) ->
    ready s p q -> short_form s p b0 b1 b2 -> execute E s = Ok (b, s', es) ->
    b = true /\ exists k e1 e2, es = e1 ++ e2 /\ storing s e1 /\ nth_in_row s p k /\ counted s' p k /\
      accesses e2 = if locked s then [] else short_request k b0 b1 b2.
  Proof.
    intros m Hm os1 os2 s0 s es0 p q b0 b1 b2 b s' es H Hr Hf He.
    exact (short_step E m Hm s p q b0 b1 b2 b s' es (after_init E m Hm _ _ _ _ _ H) Hr Hf He).
  Qed.
End Rest.
