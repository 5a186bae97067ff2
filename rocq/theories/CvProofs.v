(** CV access by packets *)
From Verif Require Import Prelude Address Instruction Datagram ZBits SpecCodec RxState Rx CodecProofs CodecProofs2 RxLogic SpecRx RxBitProofs
  RxBitProofs4 SpecExec ExecProofs SpecConf ConfProofs SpecCv.

Lemma list_eqb_eq : forall a b, list_eqb a b = true <-> a = b.
Proof.
  induction a as [|x a IH]; intros [|y b]; cbn [list_eqb]; try (split; congruence).
  rewrite andb_true_iff, Z.eqb_eq, IH. split; [intros [-> ->]; reflexivity|intros H; inversion H; auto].
Qed.

Lemma accesses_app : forall a b, accesses (a ++ b) = accesses a ++ accesses b.
Proof. intros a b. unfold accesses. apply flat_map_app. Qed.

Lemma request_spec : forall b0 b1 b2, byte b0 -> byte b1 -> byte b2 ->
  let a := Z.lor (Z.shiftl (Z.land b0 3) 8) b1 in
  let kk := Z.land (Z.shiftr b0 2) 3 in
  request b0 b1 b2 =
  if kk =? 0 then [] else if kk =? 1 then [Check a b2] else if kk =? 3 then [Store a b2]
  else [if Z.testbit b2 4 then StoreBit a (Z.testbit b2 3) (Z.land b2 7) else CheckBit a (Z.testbit b2 3) (Z.land b2 7)].
Proof.
  intros b0 b1 b2 H0 H1 H2. unfold byte in *. cbv zeta.
  rewrite land_3, land_3, land_7, !testbit_bit, shiftr_div by lia. change (2 ^ 2) with 4.
  rewrite lor_shiftl by (change (2 ^ 8) with 256; lia). change (2 ^ 8) with 256. rewrite (Z.mul_comm _ 256).
  unfold request. assert (Hk : 0 <= b0 / 4 mod 4 < 4) by (apply Z.mod_pos_bound; lia).
  destruct (b0 / 4 mod 4) as [|[[]|[]|]|]; try reflexivity; lia.
Qed.

Section Cv.
  Context {I : Type} (E : Env I).
  Implicit Types s : st I.

  Definition free {A} (f : M (I := I) A) : Prop := emits (fun e => access_of e = []) f.
  Lemma free_nil : forall A (f : M (I := I) A) s a s' es, free f -> f s = Ok (a, s', es) -> accesses es = [].
  Proof.
    intros A f s a s' es Hf H. apply Hf in H. unfold accesses. clear Hf.
    induction H as [|e l He _ IH]; [reflexivity|]. cbn [flat_map]. rewrite He, IH. reflexivity.
  Qed.

  Lemma free_init : free (init E). Proof. unfold free. emits_tac; reflexivity. Qed.
  Lemma free_reinit : forall a, free (reinit E a). Proof. intros a. unfold free. emits_tac; reflexivity. Qed.
  Lemma free_cb_byte : forall a b, free (cb_byte E a b). Proof. intros. unfold free. emits_tac; reflexivity. Qed.
  Lemma free_cb_bit : forall a b, free (cb_bit E a b). Proof. intros. unfold free. emits_tac; reflexivity. Qed.
  Lemma free_run_cb : forall c v, free (run_cb E c v). Proof. intros. unfold free. emits_tac; reflexivity. Qed.

  Lemma async_acc : forall e c s u s' es, call_async E e c s = Ok (u, s', es) -> accesses es = access_of e.
  Proof.
    intros e c s u s' es H. unfold call_async in H. destruct (e_async E (app s) e) as [[v|] i].
    - destruct (run_cb E c v _) as [[[u1 s1] e1]|r] eqn:Ec; [|discriminate].
      assert (es = e :: e1) as -> by congruence. unfold accesses. cbn [flat_map].
      fold (accesses e1). rewrite (free_nil _ _ _ _ _ _ (free_run_cb c v) Ec). apply app_nil_r.
    - assert (es = [e]) as -> by congruence. unfold accesses. cbn. apply app_nil_r.
  Qed.

  (** An access followed by its callback *)
  Lemma acc_then : forall A e (f : M (I := I) A) (k : A -> M (I := I) unit) s u s' es,
    (forall s a s' es, f s = Ok (a, s', es) -> accesses es = access_of e) -> (forall a, free (k a)) ->
    bind f k s = Ok (u, s', es) -> accesses es = access_of e.
  Proof.
    intros A e f k s u s' es Hf Hk H. apply bind_inv in H. destruct H as (a & s1 & e1 & e2 & H1 & H2 & ->).
    rewrite accesses_app, (Hf _ _ _ _ H1), (free_nil _ _ _ _ _ _ (Hk a) H2). apply app_nil_r.
  Qed.

  Lemma cvVerify_acc : forall a v s u s' es, cvVerify E a v s = Ok (u, s', es) ->
    accesses es = filter (permitted (locked s)) [Check a v].
  Proof.
    intros a v s u s' es H. unfold cvVerify in H. rewrite bind_get in H. unfold locked.
    destruct (cvs_locked (r_conf (rxs s))); [exact (free_nil _ _ _ _ _ _ (emits_ret _ _ tt) H)|].
    cbn [filter permitted negb orb]. destruct (e_async_readable E); [exact (async_acc _ _ _ _ _ _ H)|].
    revert H. apply (acc_then _ (EReadCvByte a v 0)); [|intros; apply free_cb_byte].
    intros s1 w s2 es1 H. unfold readCvByte in H. destruct (e_readCvByte E (app s1) a v). assert (es1 = [EReadCvByte a v (u8 z)]) as -> by congruence.
    reflexivity.
  Qed.
  Lemma cvVerifyBit_acc : forall a v k s u s' es, cvVerifyBit E a v k s = Ok (u, s', es) ->
    accesses es = filter (permitted (locked s)) [CheckBit a v k].
  Proof.
    intros a v k s u s' es H. unfold cvVerifyBit in H. rewrite bind_get in H. unfold locked.
    destruct (cvs_locked (r_conf (rxs s))); [exact (free_nil _ _ _ _ _ _ (emits_ret _ _ tt) H)|].
    cbn [filter permitted negb orb]. destruct (e_async_readable E); [exact (async_acc _ _ _ _ _ _ H)|].
    revert H. apply (acc_then _ (EReadCvBit a v k false)); [|intros; apply free_cb_bit].
    intros s1 w s2 es1 H. unfold readCvBit in H. destruct (e_readCvBit E (app s1) a v k) as [z i]. assert (es1 = [EReadCvBit a v k z]) as -> by congruence.
    reflexivity.
  Qed.
  Lemma cvWrite_acc : forall a v s u s' es, cvWrite E a v s = Ok (u, s', es) ->
    accesses es = filter (permitted (locked s)) [Store a v].
  Proof.
    intros a v s u s' es H. unfold cvWrite in H. rewrite bind_get in H. unfold locked.
    cbn [filter]. unfold permitted. cbn [is_writing target].
    destruct (cvs_locked (r_conf (rxs s))), (a =? 14); cbn [negb andb orb] in *;
      try exact (free_nil _ _ _ _ _ _ (emits_ret _ _ tt) H);
      revert H; (apply (acc_then _ (EWriteCvAsync a v)); [|intros; apply free_reinit]);
      intros s1 w s2 es1 H; (destruct (e_async_writable E); [exact (async_acc _ _ _ _ _ _ H)|]);
      revert H; (apply (acc_then _ (EWriteCvAsync a v)); [|intros; apply free_cb_byte]);
      intros s3 w3 s4 es3 H; unfold writeCv in H; destruct (e_writeCv E (app s3) a v) as [z i];
      assert (es3 = [EWriteCv a v (u8 z)]) as -> by congruence; reflexivity.
  Qed.
  Lemma cvWriteBit_acc : forall a v k s u s' es, cvWriteBit E a v k s = Ok (u, s', es) ->
    accesses es = filter (permitted (locked s)) [StoreBit a v k].
  Proof.
    intros a v k s u s' es H. unfold cvWriteBit in H. rewrite bind_get in H. unfold locked.
    cbn [filter]. unfold permitted. cbn [is_writing target].
    destruct (cvs_locked (r_conf (rxs s))), (a =? 14); cbn [negb andb orb] in *;
      try exact (free_nil _ _ _ _ _ _ (emits_ret _ _ tt) H);
      revert H; (apply (acc_then _ (EWriteCvBitAsync a v k)); [|intros; apply free_reinit]);
      intros s1 w s2 es1 H; (destruct (e_async_writable E); [exact (async_acc _ _ _ _ _ _ H)|]);
      revert H; (apply (acc_then _ (EWriteCvBitAsync a v k)); [|intros; apply free_cb_bit]);
      intros s3 w3 s4 es3 H; unfold writeCvBit in H; destruct (e_writeCvBit E (app s3) a v k) as [z i];
      assert (es3 = [EWriteCvBit a v k z]) as -> by congruence; reflexivity.
  Qed.

  (** ** Counting *)

  Definition counter (r : rx) := (last_own_cv_packet (r_cv r), own_equal_cv_packets_count (r_cv r)).

  Lemma count_spec : forall s p q, r_deque (rxs s) = p :: q -> exists s2 k,
    countOwnEqualCvPackets s = Ok (tt, s2, []) /\ nth_in_row s p k /\ counted s2 p k /\
    (r_conf (rxs s2) = r_conf (rxs s) /\ r_addrs (rxs s2) = r_addrs (rxs s) /\ bystanders s2 = bystanders s /\
     r_deque (rxs s2) = r_deque (rxs s) /\ app s2 = app s /\
     answer_queue s2 = if list_eqb (last_cv_packet s) p then answer_queue s else []).
  Proof.
    intros s p q Hd. unfold countOwnEqualCvPackets. rewrite bind_get, Hd, bind_ret.
    unfold last_cv_packet, nth_in_row, counted, last_cv_packet, cv_packet_count.
    destruct (list_eqb (last_own_cv_packet (r_cv (rxs s))) p) eqn:El.
    - apply list_eqb_eq in El. eexists. exists (S (own_equal_cv_packets_count (r_cv (rxs s)))).
      split; [reflexivity|]. split; [auto|]. split; [split; [exact El|reflexivity]|]. repeat split; first [reflexivity|exact Hd].
    - assert (last_own_cv_packet (r_cv (rxs s)) <> p) as Hn.
      { intros K. apply list_eqb_eq in K. congruence. }
      rewrite !bind_modify. eexists. exists 1%nat.
      split; [reflexivity|]. split; [auto|]. split; [split; reflexivity|]. repeat split; first [reflexivity|exact Hd].
  Qed.

  Lemma nth_fun : forall s p k j, nth_in_row s p k -> nth_in_row s p j -> k = j.
  Proof. unfold nth_in_row. intros s p k j H K. intuition congruence. Qed.

  Definition due_all (k : nat) (l : list access) : list access := flat_map (due k) l.

  Lemma due_service : forall l, due_all 2 l = l.
  Proof. induction l as [|[] l IH]; cbn; [reflexivity|f_equal; exact IH..]. Qed.

  Lemma keep_counter_verify : forall a v, keeps counter (cvVerify E a v). Proof. intros. keeps_tac. Qed.
  Lemma keep_counter_verifyBit : forall a v k, keeps counter (cvVerifyBit E a v k). Proof. intros. keeps_tac. Qed.
  Lemma keep_counter_write : forall a v, keeps counter (cvWrite E a v). Proof. intros. keeps_tac. Qed.
  Lemma keep_counter_writeBit : forall a v k, keeps counter (cvWriteBit E a v k). Proof. intros. keeps_tac. Qed.

  Lemma counted_keep : forall s s' p k, counter (rxs s') = counter (rxs s) -> counted s p k -> counted s' p k.
  Proof.
    unfold counter, counted, last_cv_packet, cv_packet_count. intros s s' p k H [A B]. split; congruence.
  Qed.

  (** ** Long form *)

  Lemma cvLong_acc : forall s p q n b0 b1 b2 t u s' es, r_deque (rxs s) = p :: q ->
    byte b0 -> byte b1 -> byte b2 -> ~ by_consist s n ->
    cvLong E n (b0 :: b1 :: b2 :: t) s = Ok (u, s', es) ->
    exists k, nth_in_row s p k /\ counted s' p k /\
      accesses es = if in_service s && negb (k =? 2)%nat then []
                    else filter (permitted (locked s)) (due_all k (request b0 b1 b2)).
  Proof.
    intros s p q n b0 b1 b2 t u s' es Hd H0 H1 H2 Hc H.
    unfold cvLong in H. rewrite bind_get in H.
    destruct (negb (n =? 0) && (n =? aval (consist (r_addrs (rxs s))))) eqn:En.
    { exfalso. apply Hc. apply andb_true_iff in En. destruct En as [E1 E2]. apply negb_true_iff, Z.eqb_neq in E1.
      apply Z.eqb_eq in E2. split; assumption. }
    destruct (count_spec s p q Hd) as (s2 & k & Hcount & Hk & Hcnt & Hconf & Haddr & Hby & Hdq & Happ & _).
    unfold bind at 1 in H. rewrite Hcount in H. rewrite bind_get in H.
    match type of H with match ?x with _ => _ end = _ => destruct x as [[[u1 s3] e1]|] eqn:Ex; [|discriminate] end.
    assert (s3 = s') as -> by congruence. assert (es = e1) as -> by (cbn [List.app] in H; congruence). clear H.
    exists k. split; [exact Hk|].
    assert (in_service s2 = in_service s) as Hsv by (unfold bystanders in Hby; unfold in_service; congruence).
    assert (locked s2 = locked s) as Hlk by (unfold locked; congruence).
    unfold in_service at 1 in Hsv. rewrite Hsv in Ex. destruct Hcnt as [Hc1 Hc2].
    unfold cv_packet_count in Hc2. rewrite Hc2 in Ex.
    assert (Hcnt : counted s2 p k) by (split; assumption).
    destruct (in_service s && negb (k =? 2)%nat).
    { unfold ret in Ex. assert (s' = s2) as -> by congruence. assert (e1 = []) as -> by congruence. auto. }
    rewrite <- Hlk. rewrite request_spec by assumption.
    cbn [at_ nth_error] in Ex. rewrite !bind_ret in Ex. cbv zeta in Ex |- *.
    set (a := Z.lor (Z.shiftl (Z.land b0 3) 8) b1) in *. set (kk := Z.land (Z.shiftr b0 2) 3) in *.
    destruct (kk =? 0).
    { unfold ret in Ex. assert (s' = s2) as -> by congruence. assert (e1 = []) as -> by congruence. auto. }
    destruct (kk =? 1).
    { rewrite bind_ret in Ex. split; [exact (counted_keep _ _ _ _ (keep_counter_verify _ _ _ _ _ _ Ex) Hcnt)|].
      rewrite (cvVerify_acc _ _ _ _ _ _ Ex). destruct k as [|[|[|k]]]; reflexivity. }
    destruct (kk =? 3).
    { destruct k as [|[|[|k]]]; cbn [Nat.ltb Nat.leb Nat.eqb] in Ex; rewrite ?bind_ret in Ex.
      - unfold ret in Ex. assert (s' = s2) as -> by congruence. assert (e1 = []) as -> by congruence. auto.
      - unfold ret in Ex. assert (s' = s2) as -> by congruence. assert (e1 = []) as -> by congruence. auto.
      - split; [exact (counted_keep _ _ _ _ (keep_counter_write _ _ _ _ _ _ Ex) Hcnt)|].
        rewrite (cvWrite_acc _ _ _ _ _ _ Ex). reflexivity.
      - split; [exact (counted_keep _ _ _ _ (keep_counter_verify _ _ _ _ _ _ Ex) Hcnt)|].
        rewrite (cvVerify_acc _ _ _ _ _ _ Ex). reflexivity. }
    rewrite bind_ret in Ex. destruct (Z.testbit b2 4); cbn [negb] in Ex.
    - destruct k as [|[|[|k]]]; cbn [Nat.eqb] in Ex;
        try (unfold ret in Ex; assert (s' = s2) as -> by congruence; assert (e1 = []) as -> by congruence; auto).
      split; [exact (counted_keep _ _ _ _ (keep_counter_writeBit _ _ _ _ _ _ _ Ex) Hcnt)|].
      rewrite (cvWriteBit_acc _ _ _ _ _ _ _ Ex). reflexivity.
    - split; [exact (counted_keep _ _ _ _ (keep_counter_verifyBit _ _ _ _ _ _ _ Ex) Hcnt)|].
      rewrite (cvVerifyBit_acc _ _ _ _ _ _ _ Ex). destruct k as [|[|[|k]]]; reflexivity.
  Qed.
End Cv.
