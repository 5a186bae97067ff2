(** Executing packets: where it is defined *)
From Verif Require Import Prelude Address Instruction Checksum Datagram Speed Packets Backoff RxState Rx ZBits RxLogic RxInv
  SpecCodec CodecProofs CodecProofs2 SpecRx RxBitProofs RxBitProofs4 SpecExec ExecProofs SpecConf ConfProofs SpecCv CvProofs CvProofs2 CvProofs3 SaneProofs
  SpecLogon LogonProofs LogonProofs2 LogonProofs3 SpecBidi BidiProofs BidiProofs8 SpecSafe.

Section Total.
  Context {I : Type} (E : Env I) (P : rx -> Prop).
  Implicit Types s : st I.

  (** [m] is defined wherever [P] holds and keeps [P] *)
  Definition tot {A} (m : M (I := I) A) : Prop := forall s, P (rxs s) -> exists a s' es, m s = Ok (a, s', es) /\ P (rxs s').
  (** [m] reads out of bounds wherever [P] holds *)
  Definition oob {A} (m : M (I := I) A) : Prop := forall s, P (rxs s) -> m s = UB OutOfBounds.

  Lemma tot_ret : forall A (a : A), tot (ret a). Proof. intros A a s H. exists a, s, []. auto. Qed.
  Lemma tot_bind : forall A B (m : M A) (k : A -> M B), tot m -> (forall a, tot (k a)) -> tot (bind m k).
  Proof.
    intros A B m k Hm Hk s H. destruct (Hm s H) as (a & s1 & e1 & H1 & H2). destruct (Hk a s1 H2) as (b & s2 & e2 & H3 & H4).
    exists b, s2, (e1 ++ e2). unfold bind. rewrite H1, H3. auto.
  Qed.
  Lemma tot_get : forall B (k : rx -> M B), (forall r, P r -> tot (k r)) -> tot (bind get k).
  Proof. intros B k Hk s H. destruct (Hk _ H s H) as (b & s2 & e2 & H3 & H4). exists b, s2, e2. rewrite bind_get. auto. Qed.
  Lemma tot_lift : forall A B (x : res A) (k : A -> M B), (exists a, x = Ok a /\ tot (k a)) -> tot (bind (lift x) k).
  Proof. intros A B x k (a & -> & Hk) s H. destruct (Hk s H) as (b & s2 & e2 & H3 & H4). exists b, s2, e2. rewrite ExecProofs.bind_lift. auto. Qed.
  Lemma tot_at : forall B bs i (k : Z -> M B), (i < length bs)%nat -> (forall b, tot (k b)) -> tot (bind (at_ bs i) k).
  Proof.
    intros B bs i k Hi Hk. unfold at_. destruct (nth_error bs i) eqn:En; [|apply nth_error_None in En; lia].
    intros s H. destruct (Hk z s H) as (b & s2 & e2 & H3 & H4). exists b, s2, e2. rewrite bind_ret. auto.
  Qed.
  Lemma tot_head : forall B b0 bs (k : Z -> M B), tot (k b0) -> tot (bind (at_ (b0 :: bs) 0) k).
  Proof. intros B b0 bs k Hk s H. destruct (Hk s H) as (b & s2 & e2 & H3 & H4). exists b, s2, e2. cbn [at_ nth_error]. rewrite bind_ret. auto. Qed.
  Lemma tot_modify : forall f, (forall r, P r -> P (f r)) -> tot (modify f).
  Proof. intros f Hf s H. do 3 eexists. split; [reflexivity|]. apply Hf. exact H. Qed.
  Ltac prim := intros; intros s0 H0; cbv delta [readCv readCvByte readCvBit writeCv writeCvBit call rand now] beta;
    try match goal with |- context [let '(_, _) := ?x in _] => destruct x end;
    do 3 eexists; (split; [reflexivity|]); exact H0.
  Lemma tot_readCv : forall cv, tot (readCv E cv). Proof. prim. Qed.
  Lemma tot_readCvBit : forall cv b k, tot (readCvBit E cv b k). Proof. prim. Qed.
  Lemma tot_writeCvBit : forall cv b k, tot (writeCvBit E cv b k). Proof. prim. Qed.
  Lemma tot_call : forall e, tot (call E e). Proof. prim. Qed.
  Lemma tot_rand : tot (rand E). Proof. prim. Qed.
  Lemma tot_now : tot (now E). Proof. prim. Qed.
  Lemma tot_readCvByte_bind : forall cv b B (k : Z -> M B), (forall v, byte v -> tot (k v)) -> tot (bind (readCvByte E cv b) k).
  Proof.
    intros cv b B k Hk s H. unfold bind, readCvByte. destruct (e_readCvByte E (app s) cv b) as [v i].
    destruct (Hk (u8 v) (u8_byte v) (Mk_st (rxs s) i (pending s)) H) as (x & s2 & e2 & -> & H4). do 3 eexists. split; [reflexivity|exact H4].
  Qed.
  Lemma tot_writeCv_bind : forall cv b B (k : Z -> M B), (forall v, byte v -> tot (k v)) -> tot (bind (writeCv E cv b) k).
  Proof.
    intros cv b B k Hk s H. unfold bind, writeCv. destruct (e_writeCv E (app s) cv b) as [v i].
    destruct (Hk (u8 v) (u8_byte v) (Mk_st (rxs s) i (pending s)) H) as (x & s2 & e2 & -> & H4). do 3 eexists. split; [reflexivity|exact H4].
  Qed.
  Lemma tot_call_async : forall e c, (forall v, tot (run_cb E c v)) -> tot (call_async E e c).
  Proof.
    intros e c Hc s H. unfold call_async. destruct (e_async E (app s) e) as [[v|] i].
    - destruct (Hc v (Mk_st (rxs s) i (pending s)) H) as (x & s2 & e2 & -> & H4). do 3 eexists. split; [reflexivity|exact H4].
    - do 3 eexists. split; [reflexivity|exact H].
  Qed.
  (** Definedness and the invariant separately *)
  Lemma tot_holds : forall A (m : M A), (forall s, P (rxs s) -> exists a s' es, m s = Ok (a, s', es)) -> holds P m -> tot m.
  Proof. intros A m H1 H2 s H. destruct (H1 s H) as (a & s' & es & H3). exists a, s', es. split; [exact H3|]. exact (H2 _ _ _ _ H3 H). Qed.

  Lemma oob_bind : forall A B (m : M A) (k : A -> M B), oob m -> oob (bind m k).
  Proof. intros A B m k Hm s H. unfold bind. rewrite (Hm s H). reflexivity. Qed.
  Lemma oob_after : forall A B (m : M A) (k : A -> M B), tot m -> (forall a, oob (k a)) -> oob (bind m k).
  Proof. intros A B m k Hm Hk s H. destruct (Hm s H) as (a & s1 & e1 & H1 & H2). unfold bind. rewrite H1, (Hk a s1 H2). reflexivity. Qed.
  Lemma oob_at : forall B bs i (k : Z -> M B), (length bs <= i)%nat -> oob (bind (at_ bs i) k).
  Proof. intros B bs i k Hi s H. unfold at_. rewrite (proj2 (nth_error_None bs i) Hi). reflexivity. Qed.
  Lemma oob_head : forall B b0 bs (k : Z -> M B), oob (k b0) -> oob (bind (at_ (b0 :: bs) 0) k).
  Proof. intros B b0 bs k Hk s H. cbn [at_ nth_error]. rewrite bind_ret. apply Hk. exact H. Qed.
  Lemma oob_skip : forall B bs i (k : Z -> M B), (forall b, oob (k b)) -> (i < length bs)%nat -> oob (bind (at_ bs i) k).
  Proof.
    intros B bs i k Hk Hi. unfold at_. destruct (nth_error bs i) eqn:En; [|apply nth_error_None in En; lia].
    intros s H. rewrite bind_ret. apply Hk. exact H.
  Qed.
End Total.

Lemma tot_weaken : forall I (P : rx -> Prop) A (m : M (I := I) A), tot (fun _ => True) m -> holds P m -> tot P m.
Proof.
  intros I P A m H1 H2. apply tot_holds; [|exact H2]. intros s _. destruct (H1 s Logic.I) as (a & s' & es & H & _). eauto.
Qed.

Section Init.
  Context {I : Type} (E : Env I) (HE : short_cv1 E).
  Implicit Types s : st I.

  Lemma decode_two : forall a b, byte a -> byte b -> exists x, decode_address [a; b] = Ok x.
  Proof.
    intros a b Ha Hb. exists (address_of [a; b]). apply decode_address_of; [|cbn [length]; lia].
    apply Forall_cons; [exact Ha|]. apply Forall_cons; [exact Hb|apply Forall_nil].
  Qed.
  Lemma tot_readCv_bind : forall P cv B (k : Z -> M (I := I) B), (forall v, byte v -> (cv = 0 -> ~ 192 <= v <= 231) -> tot P (k v)) -> tot P (bind (readCv E cv) k).
  Proof.
    intros P cv B k Hk s H. unfold bind, readCv. pose proof (HE (app s)) as Hc. destruct (e_readCv E (app s) cv) as [v i] eqn:Ev.
    destruct (Hk (u8 v) (u8_byte v)) with (s := Mk_st (rxs s) i (pending s)) as (x & s2 & e2 & -> & H4).
    - intros ->. rewrite Ev in Hc. exact Hc.
    - exact H.
    - do 3 eexists. split; [reflexivity|exact H4].
  Qed.
  Notation any := (fun _ : rx => True).
  Lemma init_defined : tot any (init E).
  Proof.
    unfold init. apply tot_readCv_bind. intros cv29 _ _. apply tot_bind.
    { destruct (Z.testbit cv29 5).
      - apply tot_readCv_bind. intros a Ha _. apply tot_readCv_bind. intros b Hb _. destruct (decode_two a b Ha Hb) as (x & ->).
        intros s _. do 3 eexists. split; [reflexivity|exact Logic.I].
      - apply tot_readCv_bind. intros a Ha Hn. rewrite decode_one by exact Ha. specialize (Hn eq_refl).
        replace ((192 <=? a) && (a <=? 231)) with false by lia. intros s _. do 3 eexists. split; [reflexivity|exact Logic.I]. }
    intros prim.
    repeat first [ apply tot_bind; [apply tot_readCv|intro] | apply tot_bind; [apply tot_modify; trivial|intro] | apply tot_modify; trivial ].
    cbv zeta.
    repeat first [ apply tot_bind; [apply tot_readCv|intro] | apply tot_bind; [apply tot_modify; trivial|intro] | apply tot_modify; trivial ].
    apply tot_bind; [unfold when; destruct (e_high_current E); [apply tot_call|apply tot_ret]|intro].
    repeat first [ apply tot_bind; [apply tot_readCv|intro] | apply tot_bind; [apply tot_modify; trivial|intro] | apply tot_modify; trivial ].
  Qed.
End Init.

Section Safe.
  Context {I : Type} (E : Env I) (HE : short_cv1 E) (time : I -> Z) (HC : clock E time) (p : list Z) (q : list (list Z)).
  Implicit Types s : st I.

  Definition good (r : rx) : Prop := r_deque r = p :: q /\ sane r /\ tos_tp (r_time r) <= last_packet_tp (r_time r).
  Definition fixed (r : rx) := (r_deque r, (last_packet_tp (r_time r), tos_tp (r_time r))).
  Lemma good_holds : forall A (m : M (I := I) A), holds sane m -> keeps fixed m -> holds good m.
  Proof.
    intros A m Hs Hk s a s' es H (G1 & G2 & G3). pose proof (Hk _ _ _ _ H) as K. unfold fixed in K. injection K as K1 K2 K3.
    split; [congruence|]. split; [exact (Hs _ _ _ _ H G2)|]. rewrite K2, K3. exact G3.
  Qed.

  Lemma tot_init : tot good (init E).
  Proof. apply tot_weaken; [apply init_defined; exact HE|]. apply good_holds; [apply sane_init|keeps_tac]. Qed.
  Lemma tot_pom : forall v, byte v -> tot good (@pom I v).
  Proof.
    intros v Hv. apply tot_weaken.
    - intros s _. destruct (pom_ok v s Hv) as (s' & H & _). exists tt, s', []. auto.
    - apply good_holds; [apply holds_get_bind; intros r s Hr Hs; revert s Hr Hs; intros s Hr Hs a s' es; revert Hs|keeps_tac].
      unfold pom. intros Hs H. destruct (negb _); [inversion H; subst; exact Hs|].
      apply bind_inv in H. destruct H as (x & s1 & e1 & e2 & H1 & H2 & _). destruct (rbind _ _) in H1; [|discriminate]. inversion H1; subst. inversion H2; subst. exact Hs.
  Qed.

  Lemma tot_cb_byte : forall b v, byte v -> tot good (cb_byte E b v).
  Proof.
    intros b v Hv. unfold cb_byte. apply tot_get. intros r _. destruct (negb _); [apply tot_pom; exact Hv|].
    destruct (_ =? _); [apply tot_call|apply tot_ret].
  Qed.
  Lemma tot_cb_bit : forall b v, tot good (cb_bit E b v).
  Proof.
    intros b v. unfold cb_bit. apply tot_get. intros r _. destruct (negb _); [apply tot_pom; destruct v; unfold byte; cbn; lia|].
    destruct (Bool.eqb _ _); [apply tot_call|apply tot_ret].
  Qed.
  Lemma tot_run_cb : forall c v, tot good (run_cb E c v).
  Proof. intros [b|b] v; [apply tot_cb_byte; apply u8_byte|apply tot_cb_bit]. Qed.
  Lemma tot_verify : forall a v, tot good (cvVerify E a v).
  Proof.
    intros a v. unfold cvVerify. apply tot_get. intros r _. destruct (cvs_locked _); [apply tot_ret|].
    destruct (e_async_readable E); [apply tot_call_async; apply tot_run_cb|]. apply tot_readCvByte_bind. intros x Hx. apply tot_cb_byte. exact Hx.
  Qed.
  Lemma tot_verifyBit : forall a v k, tot good (cvVerifyBit E a v k).
  Proof.
    intros a v k. unfold cvVerifyBit. apply tot_get. intros r _. destruct (cvs_locked _); [apply tot_ret|].
    destruct (e_async_readable E); [apply tot_call_async; apply tot_run_cb|]. apply tot_bind; [apply tot_readCvBit|intro; apply tot_cb_bit].
  Qed.
  Lemma tot_reinit : forall a, tot good (reinit E a).
  Proof. intros a. unfold reinit, when. destruct (existsb _ _); [apply tot_init|apply tot_ret]. Qed.
  Lemma tot_write : forall a v, tot good (cvWrite E a v).
  Proof.
    intros a v. unfold cvWrite. apply tot_get. intros r _. destruct (_ && _); [apply tot_ret|]. apply tot_bind; [|intros _; apply tot_reinit].
    destruct (e_async_writable E); [apply tot_call_async; apply tot_run_cb|]. apply tot_writeCv_bind. intros x Hx. apply tot_cb_byte. exact Hx.
  Qed.
  Lemma tot_writeBit : forall a v k, tot good (cvWriteBit E a v k).
  Proof.
    intros a v k. unfold cvWriteBit. apply tot_get. intros r _. destruct (_ && _); [apply tot_ret|]. apply tot_bind; [|intros _; apply tot_reinit].
    destruct (e_async_writable E); [apply tot_call_async; apply tot_run_cb|]. apply tot_bind; [apply tot_writeCvBit|intro; apply tot_cb_bit].
  Qed.
  Lemma tot_search : tot good (tipOffSearch E).
  Proof.
    apply tot_holds.
    - intros s (_ & G2 & G3). destruct (search_run E time HC s G2 G3) as (s' & H & _). eauto.
    - apply good_holds; [|keeps_tac]. unfold tipOffSearch. apply holds_bind; [apply sane_test_tos|intro b].
      apply holds_bind; [apply holds_get|intro r]. cbv zeta. destruct (_ || _); [apply holds_ret|]. destruct (_ <=? _); [apply holds_ret|].
      do 3 (apply holds_bind; [apply holds_lift|intro]). holds_tac.
  Qed.

  Ltac tot1 :=
    lazymatch goal with
    | |- tot _ (bind get _) => apply tot_get; intros ? ?
    | |- tot _ (bind (at_ _ _) _) => apply tot_at; [|intro]
    | |- tot _ (bind _ _) => apply tot_bind; [|intro]
    | |- tot _ (ret _) => apply tot_ret
    | |- tot _ (call _ _) => apply tot_call
    | |- tot _ (modify _) => apply tot_modify; intros ? (? & ? & ?); (split; [|split]); assumption
    | |- tot _ (cvVerify _ _ _) => apply tot_verify
    | |- tot _ (cvVerifyBit _ _ _ _) => apply tot_verifyBit
    | |- tot _ (cvWrite _ _ _) => apply tot_write
    | |- tot _ (cvWriteBit _ _ _ _) => apply tot_writeBit
    | |- tot _ (tipOffSearch _) => apply tot_search
    | |- tot _ (when ?b _) => unfold when
    | |- tot _ (if ?b then _ else _) => destruct b eqn:?
    | |- tot _ (match ?x with _ => _ end) => destruct x
    | |- tot _ (let _ := _ in _) => cbv zeta
    | |- tot _ ?m => let h := head_of m in unfold h
    end.
  Ltac tot_tac := repeat tot1.

  Lemma tot_consistControl : forall bs, (2 <= length bs)%nat -> tot good (consistControl E bs).
  Proof. intros bs H. tot_tac; lia. Qed.
  Lemma tot_speed126 : forall n bs, (2 <= length bs)%nat -> tot good (speed126 E n bs).
  Proof. intros n bs H. tot_tac; lia. Qed.
  Lemma tot_advanced : forall n b0 bs, (b0 = 0x3C \/ b0 = 0x3E \/ b0 = 0x3F -> bs <> []) -> tot good (advancedOperations E n (b0 :: bs)).
  Proof.
    intros n b0 bs H. unfold advancedOperations. apply tot_head.
    assert (L : b0 = 0x3C \/ b0 = 0x3E \/ b0 = 0x3F -> (2 <= length (b0 :: bs))%nat).
    { intros K. specialize (H K). destruct bs; [congruence|cbn [length]; lia]. }
    destruct (Z.eqb_spec b0 0x3C); [|destruct (Z.eqb_spec b0 0x3F); [|destruct (Z.eqb_spec b0 0x3E); [|apply tot_ret]]]; specialize (L ltac:(tauto)).
    - cbv zeta. set (bs' := b0 :: bs) in *. clearbody bs'.
      repeat (apply tot_bind; [unfold when; destruct (_ <? _)%nat eqn:El; [apply Nat.ltb_lt in El; apply tot_at; [lia|intro; apply tot_call]|apply tot_ret]|intros _]).
      apply tot_speed126. exact L.
    - apply tot_speed126. exact L.
    - set (bs' := b0 :: bs) in *. clearbody bs'. tot_tac; lia.
  Qed.

  Lemma tot_binary : forall x b, tot good (binaryState E x b).
  Proof. intros x b. tot_tac. Qed.
  Lemma tot_feature : forall n b0 bs, (b0 = 0xC0 -> (2 <= length bs)%nat) -> (b0 = 0xDD \/ b0 = 0xDE \/ b0 = 0xDF -> (1 <= length bs)%nat) ->
    tot good (featureExpansion E n (b0 :: bs)).
  Proof.
    intros n b0 bs H1 H2. unfold featureExpansion. apply tot_head.
    destruct (Z.eqb_spec b0 0xC0) as [C|_].
    { specialize (H1 C). apply tot_at; [cbn [length]; lia|intro]. apply tot_at; [cbn [length]; lia|intro]. apply tot_binary. }
    destruct (Z.eqb_spec b0 0xDD) as [C|_]; [specialize (H2 ltac:(tauto)); apply tot_at; [cbn [length]; lia|intro]; apply tot_binary|].
    destruct (Z.eqb_spec b0 0xDE) as [C|_]; [specialize (H2 ltac:(tauto)); apply tot_at; [cbn [length]; lia|intro]; apply tot_call|].
    destruct (Z.eqb_spec b0 0xDF) as [C|_]; [specialize (H2 ltac:(tauto)); apply tot_at; [cbn [length]; lia|intro]; apply tot_call|].
    apply tot_ret.
  Qed.
  Lemma tot_count : tot good (@countOwnEqualCvPackets I).
  Proof.
    unfold countOwnEqualCvPackets. apply tot_get. intros r (G1 & _). rewrite G1. apply tot_bind; [apply tot_ret|intro f]. tot_tac.
  Qed.

  (** Outcome: defined or out of bounds *)
  Definition outcome (b : bool) {A} (x : res (A * st I * list event)) : Prop :=
    if b then exists a s' es, x = Ok (a, s', es) /\ good (rxs s') else x = UB OutOfBounds.
  Lemma outcome_tot : forall A (m : M (I := I) A) s, good (rxs s) -> tot good m -> outcome true (m s).
  Proof. intros A m s G H. exact (H s G). Qed.
  Lemma outcome_oob : forall A (m : M (I := I) A) s, good (rxs s) -> oob good m -> outcome false (m s).
  Proof. intros A m s G H. exact (H s G). Qed.
  Lemma outcome_after : forall A B (m : M (I := I) A) (k : A -> M B) s s1 a b, m s = Ok (a, s1, []) -> outcome b (k a s1) -> outcome b (bind m k s).
  Proof.
    intros A B m k s s1 a b H. unfold bind. rewrite H. destruct (k a s1) as [[[x s2] e2]|r]; cbn [List.app]; trivial.
  Qed.

  Definition kind (b0 : Z) : Z := Z.land (Z.shiftr b0 2) 3.
  Definition long_need (svc : bool) (k : nat) (b0 : Z) : nat :=
    if svc && negb (k =? 2)%nat then 1%nat
    else if kind b0 =? 0 then 2%nat else if (kind b0 =? 3) && (k <? 2)%nat then 2%nat else 3%nat.

  Lemma long_outcome : forall s n b0 bs k, good (rxs s) -> nth_in_row s p k -> is_member s n = false ->
    outcome (long_need (in_service s) k b0 <=? length (b0 :: bs))%nat (cvLong E n (b0 :: bs) s).
  Proof.
    intros s n b0 bs k G Hk Hn. unfold cvLong. rewrite bind_get. unfold is_member in Hn. rewrite Hn.
    destruct (count_spec s p q (proj1 G)) as (s2 & j & Hc & Hj & [_ Hcnt] & _ & _ & Hby & _).
    rewrite (nth_fun _ _ _ _ Hk Hj). clear k Hk Hj. apply (outcome_after _ _ _ _ _ s2 tt); [exact Hc|].
    assert (G2 : good (rxs s2)). { destruct (tot_count s G) as (u & s3 & es & H3 & G3). rewrite Hc in H3. assert (s3 = s2) as <- by congruence. exact G3. }
    rewrite bind_get. unfold cv_packet_count in Hcnt. rewrite Hcnt.
    assert (service_mode (r_cv (rxs s2)) = in_service s) as -> by (unfold bystanders, in_service in *; congruence).
    unfold long_need. destruct (in_service s && negb (j =? 2)%nat); [cbn [length Nat.leb]; apply outcome_tot; [exact G2|apply tot_ret]|].
    fold (kind b0). destruct bs as [|b1 bs].
    { replace (_ <=? length [b0])%nat with false; [|symmetry; apply Nat.leb_gt; cbn [length]; destruct (kind b0 =? 0); [lia|destruct ((kind b0 =? 3) && _); lia]].
      apply outcome_oob; [exact G2|]. apply oob_head. apply oob_at. cbn [length]. lia. }
    unfold at_ at 1 2. cbn [nth_error]. rewrite !bind_ret. cbv zeta. fold (kind b0). destruct (kind b0 =? 0).
    { cbn [length Nat.leb]. apply outcome_tot; [exact G2|apply tot_ret]. }
    destruct bs as [|b2 bs].
    - destruct (Z.eqb_spec (kind b0) 1) as [C|_].
      { replace (kind b0 =? 3) with false by lia. cbn [andb length Nat.leb]. apply outcome_oob; [exact G2|]. apply oob_at. cbn [length]. lia. }
      destruct (kind b0 =? 3); cbn [andb].
      + destruct (j <? 2)%nat; [cbn [length Nat.leb]; apply outcome_tot; [exact G2|apply tot_ret]|].
        cbn [length Nat.leb]. apply outcome_oob; [exact G2|]. destruct (j =? 2)%nat; apply oob_at; cbn [length]; lia.
      + cbn [length Nat.leb]. apply outcome_oob; [exact G2|]. apply oob_at. cbn [length]. lia.
    - replace (_ <=? _)%nat with true by (symmetry; apply Nat.leb_le; cbn [length]; destruct ((kind b0 =? 3) && _); lia).
      apply outcome_tot; [exact G2|]. tot_tac; cbn [length]; lia.
  Qed.

  Definition short_need (k : nat) (b0 : Z) : nat :=
    let n := Z.land b0 0x0F in
    if (n =? 2) || (n =? 3) then 2%nat else if ((n =? 4) || (n =? 5)) && (k =? 2)%nat then 3%nat else 1%nat.
  Lemma short_outcome : forall s n b0 bs k, good (rxs s) -> nth_in_row s p k -> is_member s n = false ->
    outcome (short_need k b0 <=? length (b0 :: bs))%nat (cvShort E n (b0 :: bs) s).
  Proof.
    intros s n b0 bs k G Hk Hn. unfold cvShort. rewrite bind_get. unfold is_member in Hn. rewrite Hn.
    destruct (count_spec s p q (proj1 G)) as (s2 & j & Hc & Hj & [_ Hcnt] & _ & _ & Hby & _).
    rewrite (nth_fun _ _ _ _ Hk Hj). clear k Hk Hj. apply (outcome_after _ _ _ _ _ s2 tt); [exact Hc|].
    assert (G2 : good (rxs s2)). { destruct (tot_count s G) as (u & s3 & es & H3 & G3). rewrite Hc in H3. assert (s3 = s2) as <- by congruence. exact G3. }
    rewrite bind_get. unfold cv_packet_count in Hcnt. rewrite Hcnt. unfold at_ at 1. cbn [nth_error]. rewrite bind_ret. cbv zeta.
    unfold short_need. cbv zeta. set (i := Z.land b0 0x0F). clearbody i.
    destruct (Z.eqb_spec i 2) as [->|N2].
    { cbn [orb]. destruct bs as [|b1 bs]; cbn [length Nat.leb]; [apply outcome_oob; [exact G2|]; apply oob_at; cbn [length]; lia|].
      apply outcome_tot; [exact G2|]. apply tot_at; [cbn [length]; lia|intro; apply tot_write]. }
    destruct (Z.eqb_spec i 3) as [->|N3].
    { cbn [orb]. destruct bs as [|b1 bs]; cbn [length Nat.leb]; [apply outcome_oob; [exact G2|]; apply oob_at; cbn [length]; lia|].
      apply outcome_tot; [exact G2|]. apply tot_at; [cbn [length]; lia|intro; apply tot_write]. }
    cbn [orb]. destruct (Z.eqb_spec i 4) as [->|N4].
    { cbn [orb andb]. destruct (j =? 2)%nat; cbn [negb]; [|cbn [length Nat.leb]; apply outcome_tot; [exact G2|apply tot_ret]].
      destruct bs as [|b1 [|b2 bs]]; cbn [length Nat.leb].
      - apply outcome_oob; [exact G2|]. apply oob_at. cbn [length]. lia.
      - apply outcome_oob; [exact G2|]. apply oob_skip; [|cbn [length]; lia]. intro. apply oob_after; [apply tot_write|intros _]. apply oob_at. cbn [length]. lia.
      - apply outcome_tot; [exact G2|]. tot_tac; cbn [length]; lia. }
    destruct (Z.eqb_spec i 5) as [->|N5].
    { cbn [orb andb]. destruct (j =? 2)%nat; cbn [negb]; [|cbn [length Nat.leb]; apply outcome_tot; [exact G2|apply tot_ret]].
      destruct bs as [|b1 [|b2 bs]]; cbn [length Nat.leb].
      - apply outcome_oob; [exact G2|]. apply oob_at. cbn [length]. lia.
      - apply outcome_oob; [exact G2|]. apply oob_skip; [|cbn [length]; lia]. intro. apply oob_after; [apply tot_write|intros _]. apply oob_at. cbn [length]. lia.
      - apply outcome_tot; [exact G2|]. tot_tac; cbn [length]; lia. }
    cbn [orb andb length Nat.leb]. apply outcome_tot; [exact G2|apply tot_ret].
  Qed.

  Ltac range b0 := cbn [existsb]; repeat match goal with |- context [b0 =? ?c] => destruct (Z.eqb_spec b0 c); [lia|] end; cbn [orb andb].
  Lemma kind_spec : forall b, byte b -> kind b = b / 4 mod 4.
  Proof. intros b Hb. unfold kind. rewrite Z.shiftr_div_pow2 by lia. change 3 with (Z.ones 2). rewrite Z.land_ones by lia. reflexivity. Qed.
  Lemma low_spec : forall b, Z.land b 0x0F = b mod 16.
  Proof. intros b. change 0x0F with (Z.ones 4). rewrite Z.land_ones by lia. reflexivity. Qed.

  Lemma dispatch_outcome : forall s n b0 bs k, byte b0 -> good (rxs s) -> in_service s = false -> nth_in_row s p k ->
    outcome (need k (is_member s n) b0 <=? length (b0 :: bs))%nat (dispatch E n (b0 :: bs) s).
  Proof.
    intros s n b0 bs k Hb G Hv Hk. unfold dispatch. rewrite decode_instruction_spec by exact Hb. rewrite ExecProofs.bind_lift.
    destruct (nibble b0 Hb) as (m & Hm & Hm2 & Hm3).
    assert (m = 0 \/ m = 1 \/ m = 2 \/ m = 3 \/ 4 <= m < 8 \/ 8 <= m < 12 \/ m = 12 \/ m = 13 \/ m = 14 \/ m = 15) as C by lia.
    unfold need. rewrite Hm2.
    destruct C as [->|[->|[->|[->|[C|[C|[->|[->|[->| ->]]]]]]]]].
    - cbn [Z.eqb Pos.eqb nibble_class Z.to_nat nth]. range b0. destruct (is_member s n); cbn [length Nat.leb]; apply outcome_tot; try exact G; tot_tac; cbn [length]; lia.
    - cbn [Z.eqb Pos.eqb nibble_class Z.to_nat Pos.to_nat Pos.iter_op Nat.add nth]. destruct bs as [|b1 bs]; cbn [length Nat.leb].
      + apply outcome_oob; [exact G|]. unfold consistControl. apply oob_head. apply oob_at. cbn [length]. lia.
      + apply outcome_tot; [exact G|]. apply tot_consistControl. cbn [length]. lia.
    - cbn [Z.eqb Pos.eqb nibble_class Z.to_nat Pos.to_nat Pos.iter_op Nat.add nth]. range b0.
      destruct (is_member s n); cbn [length Nat.leb]; apply outcome_tot; try exact G; apply tot_advanced; lia.
    - change (nibble_class 3) with IAdvancedOperations. cbv iota. change (3 =? 1) with false. change (3 =? 14) with false. cbv iota.
      destruct bs as [|b1 bs].
      + assert (H : forall b0, b0 = 0x3C \/ b0 = 0x3F \/ b0 = 0x3E -> oob good (advancedOperations E n [b0])).
        { intros b K. unfold advancedOperations. apply oob_head. destruct K as [->|[->| ->]]; cbn [Z.eqb Pos.eqb]; cbv zeta; cbn [length Nat.ltb Nat.leb].
          - do 4 (apply oob_after; [apply tot_ret|intros _]). apply oob_at. cbn [length]. lia.
          - apply oob_at. cbn [length]. lia.
          - apply oob_at. cbn [length]. lia. }
        cbn [existsb length].
        destruct (Z.eqb_spec b0 0x3C); [cbn [orb Nat.leb]; apply outcome_oob; [exact G|apply H; tauto]|].
        destruct (Z.eqb_spec b0 0x3E); [cbn [orb Nat.leb]; apply outcome_oob; [exact G|apply H; tauto]|].
        destruct (Z.eqb_spec b0 0x3F); [cbn [orb Nat.leb]; apply outcome_oob; [exact G|apply H; tauto]|].
        range b0. destruct (is_member s n); cbn [Nat.leb]; apply outcome_tot; try exact G; apply tot_advanced; lia.
      + replace (_ <=? _)%nat with true; [apply outcome_tot; [exact G|apply tot_advanced; discriminate]|].
        symmetry. apply Nat.leb_le. cbn [length existsb]. repeat match goal with |- context [b0 =? ?c] => destruct (Z.eqb_spec b0 c); [try lia|] end; cbn [orb andb]; try lia.
        destruct (is_member s n); lia.
    - assert (nibble_class m = ISpeedDirection) as -> by (rewrite <- Hm2; apply (class_of b0 4 8 ISpeedDirection Hb eq_refl); lia). replace (m =? 1) with false by lia. replace (m =? 14) with false by lia. range b0.
      destruct (is_member s n); cbn [length Nat.leb]; apply outcome_tot; try exact G; tot_tac; cbn [length]; lia.
    - assert (nibble_class m = IFunctionGroup) as -> by (rewrite <- Hm2; apply (class_of b0 8 12 IFunctionGroup Hb eq_refl); lia). replace (m =? 1) with false by lia. replace (m =? 14) with false by lia. range b0.
      destruct (is_member s n); cbn [length Nat.leb]; apply outcome_tot; try exact G; tot_tac; cbn [length]; lia.
    - change (nibble_class 12) with IFeatureExpansion. cbv iota. change (12 =? 1) with false. change (12 =? 14) with false. cbv iota. cbn [existsb].
      do 6 match goal with |- context [b0 =? ?c] => destruct (Z.eqb_spec b0 c); [lia|] end. cbn [orb].
      destruct (Z.eqb_spec b0 0xC0) as [->|N].
      + destruct (Nat.leb_spec 3 (length (0xC0 :: bs))) as [L|L].
        * apply outcome_tot; [exact G|]. apply tot_feature; [|lia]. intros _. cbn [length] in L. lia.
        * apply outcome_oob; [exact G|]. unfold featureExpansion. apply oob_head. cbn [Z.eqb Pos.eqb]. apply oob_at. lia.
      + range b0. destruct (is_member s n); cbn [length Nat.leb]; apply outcome_tot; try exact G; apply tot_feature; lia.
    - change (nibble_class 13) with IFeatureExpansion. cbv iota. change (13 =? 1) with false. change (13 =? 14) with false. cbv iota.
      destruct bs as [|b1 bs].
      + assert (H : forall b0, b0 = 0xDD \/ b0 = 0xDE \/ b0 = 0xDF -> oob good (featureExpansion E n [b0])).
        { intros b K. unfold featureExpansion. apply oob_head. destruct K as [->|[->| ->]]; cbn [Z.eqb Pos.eqb]; apply oob_at; cbn [length]; lia. }
        cbn [existsb length]. do 3 match goal with |- context [b0 =? ?c] => destruct (Z.eqb_spec b0 c); [lia|] end. cbn [orb].
        destruct (Z.eqb_spec b0 0xDD); [cbn [orb Nat.leb]; apply outcome_oob; [exact G|apply H; tauto]|].
        destruct (Z.eqb_spec b0 0xDE); [cbn [orb Nat.leb]; apply outcome_oob; [exact G|apply H; tauto]|].
        destruct (Z.eqb_spec b0 0xDF); [cbn [orb Nat.leb]; apply outcome_oob; [exact G|apply H; tauto]|].
        range b0. destruct (is_member s n); cbn [Nat.leb]; apply outcome_tot; try exact G; apply tot_feature; lia.
      + replace (_ <=? _)%nat with true; [apply outcome_tot; [exact G|apply tot_feature; cbn [length]; lia]|].
        symmetry. apply Nat.leb_le. cbn [length existsb]. repeat match goal with |- context [b0 =? ?c] => destruct (Z.eqb_spec b0 c); [try lia|] end; cbn [orb andb]; try lia.
        destruct (is_member s n); lia.
    - change (nibble_class 14) with ICvLong. cbv iota. change (14 =? 1) with false. change (14 =? 14) with true. cbv iota. range b0.
      destruct (is_member s n) eqn:Em.
      + cbn [length Nat.leb]. unfold cvLong. rewrite bind_get. unfold is_member in Em. rewrite Em. apply outcome_tot; [exact G|apply tot_ret].
      + rewrite <- (kind_spec b0 Hb). pose proof (long_outcome s n b0 bs k G Hk Em) as L. rewrite Hv in L. exact L.
    - change (nibble_class 15) with ICvShort. cbv iota. change (15 =? 1) with false. change (15 =? 14) with false. cbv iota.
      cbn [existsb]. do 7 match goal with |- context [b0 =? ?c] => destruct (Z.eqb_spec b0 c); [lia|] end. cbn [orb].
      destruct (is_member s n) eqn:Em.
      + cbn [length Nat.leb]. unfold cvShort. rewrite bind_get. unfold is_member in Em. rewrite Em. apply outcome_tot; [exact G|apply tot_ret].
      + pose proof (short_outcome s n b0 bs k G Hk Em) as L. unfold short_need in L. rewrite low_spec in L. cbv zeta in L. rewrite !orb_false_r.
        replace (b0 mod 16 =? 2) with (b0 =? 0xF2) in L by lia. replace (b0 mod 16 =? 3) with (b0 =? 0xF3) in L by lia.
        replace (b0 mod 16 =? 4) with (b0 =? 0xF4) in L by lia. replace (b0 mod 16 =? 5) with (b0 =? 0xF5) in L by lia. exact L.
  Qed.

  Lemma service_outcome : forall s, (3 <= length p)%nat -> good (rxs s) -> outcome true (executeService E s).
  Proof.
    intros s L G. pose proof G as (Gd & _). unfold executeService. rewrite bind_get, Gd, bind_ret.
    destruct p as [|p0 t] eqn:Ep; [cbn [length] in L; lia|]. cbn [at_ nth_error]. rewrite bind_ret. rewrite <- Ep in *.
    assert (outcome true ((if p0 =? 0 then ret tt else if negb (Z.land p0 0xF0 =? 0x70) then serviceMode E false
      else if (length p =? 3)%nat then registerMode E p else if (length p =? 4)%nat then cvLong E 0 p else ret tt) s)) as (a & s1 & e1 & H1 & G1).
    { destruct (p0 =? 0); [apply outcome_tot; [exact G|apply tot_ret]|].
      destruct (negb _); [apply outcome_tot; [exact G|tot_tac]|].
      destruct (length p =? 3)%nat eqn:E3; [apply outcome_tot; [exact G|]|].
      { apply Nat.eqb_eq in E3. clear - HE E3. tot_tac; lia. }
      destruct (length p =? 4)%nat eqn:E4; [|apply outcome_tot; [exact G|apply tot_ret]]. apply Nat.eqb_eq in E4.
      destruct (count_spec s p q Gd) as (s2 & k & _ & Hk & _).
      pose proof (long_outcome s 0 p0 t k G Hk eq_refl) as H. rewrite <- Ep in H.
      replace (_ <=? length p)%nat with true in H; [exact H|]. symmetry. apply Nat.leb_le. rewrite E4. unfold long_need.
      destruct (_ && _); [lia|]. destruct (kind p0 =? 0); [lia|]. destruct ((kind p0 =? 3) && _); lia. }
    exists true, s1, (e1 ++ []). split; [|exact G1]. unfold bind. rewrite H1. reflexivity.
  Qed.
End Safe.

Section Execute.
  Context {I : Type} (E : Env I) (HE : short_cv1 E) (time : I -> Z) (HC : clock E time).
  Implicit Types s : st I.

  Definition sound s : Prop := sane (rxs s) /\ ordered time s.
  Lemma sound_run : forall i os s es, 0 <= time i -> run E os (st0 i) = Ok (tt, s, es) -> sound s.
  Proof. intros i os s es Hi H. split; [exact (sane_run _ _ _ _ _ H)|exact (ordered_run E time HC _ _ _ _ Hi H)]. Qed.

  Lemma execute_good : forall s p q, sound s -> ready s p q -> exists s1 e1, good p q (rxs s1) /\ hk (rxs s1) = hk (rxs s) /\
    execute E s = match executeCommand E s1 with
                  | Ok (b, s2, e2) => Ok (b, pop q s2, e1 ++ e2)
                  | UB r => UB r
                  end.
  Proof.
    intros s p q [Hs Ho] Hr. destruct (execute_housekeeping E s p q Hr) as (s1 & e1 & Hh & Hk & _ & _ & He).
    exists s1, e1. split; [|split; [exact Hk|exact He]].
    destruct (housekeeping_time E time HC _ _ _ Ho Hh) as (t & T1 & T2 & T3 & T4). split; [|split].
    - unfold hk in Hk. destruct Hr. congruence.
    - assert (holds sane (housekeeping E)) as K; [|exact (K _ _ _ _ Hh Hs)]. unfold housekeeping.
      apply holds_bind; [apply sane_adr|intro]. apply holds_bind; [apply sane_logonStore|intro]. apply holds_bind; [apply sane_updateQos|intro]. apply sane_updateTimepoints.
    - unfold last_time, wake_time in *. rewrite T2, T3. destruct Ho as [O1 O2]. unfold last_time, wake_time in *. destruct (woken s t); lia.
  Qed.

  Lemma execute_outcome : forall s p q, sound s -> ready s p q -> Forall byte p -> (3 <= length p)%nat ->
    (forall n, ~ obeyed s p n) /\ (exists b s' es, execute E s = Ok (b, s', es)) \/
    exists n k, obeyed s p n /\ nth_in_row s p k /\
      if (need k (is_member s n) (hd 0%Z (body_of p)) <=? length (body_of p))%nat then exists s' es, execute E s = Ok (true, s', es)
      else execute E s = UB OutOfBounds.
  Proof.
    intros s p q Hsd Hr Hb Hl. destruct (execute_good s p q Hsd Hr) as (s1 & e1 & G & Hk & He).
    assert (H2 : r_addrs (rxs s1) = r_addrs (rxs s)) by (unfold hk in Hk; congruence).
    assert (H3 : in_service s1 = in_service s) by (unfold in_service, hk in *; congruence).
    assert (H4 : r_cv (rxs s1) = r_cv (rxs s)) by (unfold hk in Hk; congruence).
    destruct (in_service s) eqn:Ev.
    - left. split; [intros n (H & _); congruence|]. destruct (service_outcome E HE p q s1 Hl G) as (b & s2 & e2 & H5 & _).
      do 3 eexists. rewrite He. unfold executeCommand. rewrite bind_get. unfold in_service in H3. rewrite H3, H5. reflexivity.
    - destruct (command_operations E s1 p q H3 (proj1 G) Hb Hl) as [(Hf & n & Ha & Hc)|(Hc & Hc2)].
      + right. destruct (count_spec s p q (proj2 Hr)) as (_ & k & _ & Hn & _).
        exists n, k. rewrite H2 in Ha. split; [split; [exact Ev|auto]|]. split; [exact Hn|].
        assert (Hn1 : nth_in_row s1 p k) by (unfold nth_in_row, last_cv_packet, cv_packet_count in *; rewrite H4; exact Hn).
        assert (Hm : is_member s1 n = is_member s n) by (unfold is_member; rewrite H2; reflexivity). rewrite <- Hm.
        pose proof (body_bytes _ Hb) as Hbb. pose proof (body_nonempty p Hl) as Hne.
        destruct (body_of p) as [|b0 bs]; [congruence|]. apply Forall_inv in Hbb. cbn [hd].
        pose proof (dispatch_outcome E HE time HC p q s1 n b0 bs k Hbb G H3 Hn1) as O. rewrite He, Hc.
        destruct (_ <=? _)%nat; cbn [outcome] in O.
        * destruct O as (u & s2 & e2 & O & _). unfold bind. rewrite O. do 2 eexists. reflexivity.
        * unfold bind. rewrite O. reflexivity.
      + left. split; [|rewrite He, Hc2; eauto]. intros n (_ & Hf & Ha). apply Hc. split; [exact Hf|]. exists n. rewrite H2. exact Ha.
  Qed.
End Execute.
