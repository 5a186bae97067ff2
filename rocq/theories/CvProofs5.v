(** CV access by packets: short form, CV numbers, service mode *)
From Verif Require Import Prelude Address Instruction Datagram ZBits SpecCodec RxState Rx CodecProofs CodecProofs2 RxLogic SpecRx RxBitProofs
  RxBitProofs3 RxBitProofs4 SpecExec ExecProofs SpecConf ConfProofs ConfProofs2 SpecCv CvProofs CvProofs2 CvProofs3 CvProofs4.

Section Short.
  Context {I : Type} (E : Env I) (m : I -> Z -> Z) (Hm : cv_memory E m).
  Implicit Types s : st I.

  (** A write to another CV does not change the lock *)
  Lemma lock_after_write : forall a v s u s' es, a <> 14 -> a <> 15 -> Lk m s -> cvWrite E a v s = Ok (u, s', es) ->
    Lk m s' /\ locked s' = locked s.
  Proof.
    intros a v s u s' es H14 H15 K H. assert (Lk m s') as K' by exact (lawful_cvWrite E m Hm a v _ _ _ _ H K).
    split; [exact K'|]. rewrite K, K'. apply lock_ext.
    - revert H. unfold cvWrite. rewrite (proj2 (mem_sync E m Hm)), bind_get.
      destruct (cvs_locked (r_conf (rxs s)) && negb (a =? 14)).
      { unfold ret. intros H. assert (s' = s) as -> by congruence. reflexivity. }
      intros H. apply bind_inv in H. destruct H as (u1 & s1 & e1 & e2 & H1 & H2 & ->).
      destruct (wrote_byte E m Hm a v _ (fun w => quiet_cb_byte E m Hm v w) _ _ _ _ H1) as (_ & A2 & _).
      rewrite <- (A2 14) by congruence. unfold reinit, when in H2. destruct (existsb (Z.eqb a) init_cvs).
      + destruct (init_memory E m s1 Hm) as [[_ X]|(_ & t & X & _ & _ & Hmt)]; [congruence|].
        assert (t = s') as -> by congruence. rewrite Hmt. reflexivity.
      + unfold ret in H2. assert (s' = s1) as -> by congruence. reflexivity.
    - revert H. unfold cvWrite. rewrite (proj2 (mem_sync E m Hm)), bind_get.
      destruct (cvs_locked (r_conf (rxs s)) && negb (a =? 14)).
      { unfold ret. intros H. assert (s' = s) as -> by congruence. reflexivity. }
      intros H. apply bind_inv in H. destruct H as (u1 & s1 & e1 & e2 & H1 & H2 & ->).
      destruct (wrote_byte E m Hm a v _ (fun w => quiet_cb_byte E m Hm v w) _ _ _ _ H1) as (_ & A2 & _).
      rewrite <- (A2 15) by congruence. unfold reinit, when in H2. destruct (existsb (Z.eqb a) init_cvs).
      + destruct (init_memory E m s1 Hm) as [[_ X]|(_ & t & X & _ & _ & Hmt)]; [congruence|].
        assert (t = s') as -> by congruence. rewrite Hmt. reflexivity.
      + unfold ret in H2. assert (s' = s1) as -> by congruence. reflexivity.
  Qed.

  Lemma long_cv17 : forall b, byte b -> u8 (Z.lor 0xC0 b) = 192 + b mod 64.
  Proof.
    intros b Hb. apply Z.eqb_eq.
    exact (sweep8 (fun b => u8 (Z.lor 0xC0 b) =? 192 + b mod 64) ltac:(vm_compute; reflexivity) b Hb).
  Qed.

  Lemma permitted_not15 : forall l, Forall (fun x => is_writing x = true /\ target x <> 14) l ->
    forall k, filter (permitted k) l = if k then [] else l.
  Proof.
    intros l Hl [|]; induction Hl as [|x l [H1 H2] _ IH]; try reflexivity; cbn [filter]; unfold permitted at 1; rewrite ?H1.
    - rewrite (proj2 (Z.eqb_neq _ _) H2). exact IH.
    - cbn [negb orb]. rewrite IH. reflexivity.
  Qed.

  Lemma keep_counter_short : forall a v s u s' es p k, cvWrite E a v s = Ok (u, s', es) -> counted s p k -> counted s' p k.
  Proof. intros a v s u s' es p k H. apply counted_keep. exact (keep_counter_write E a v _ _ _ _ H). Qed.

  Lemma short_spec : forall k b0 b1 b2, byte b0 -> byte b1 ->
    short_request k b0 b1 b2 =
    let n := Z.land b0 0x0F in
    if n =? 2 then [Store 22 b1]
    else if n =? 3 then [Store 23 b1]
    else if n =? 4 then
      if negb (k =? 2)%nat then []
      else [Store 16 (u8 (Z.lor 0xC0 b1)); Store 17 b2; StoreBit 28 true 5]
    else if n =? 5 then
      if negb (k =? 2)%nat then [] else [Store 30 b1; Store 31 b2]
    else [].
  Proof.
    intros k b0 b1 b2 H0 H1. unfold short_request. rewrite land_0F, long_cv17 by exact H1. cbv zeta.
    assert (0 <= b0 mod 16 < 16) as Hn by (apply Z.mod_pos_bound; lia). generalize dependent (b0 mod 16). intros n Hn.
    destruct (Z.eqb_spec n 2) as [->|N2]; [reflexivity|]. destruct (Z.eqb_spec n 3) as [->|N3]; [reflexivity|].
    destruct (Z.eqb_spec n 4) as [->|N4]; [destruct (k =? 2)%nat; reflexivity|].
    destruct (Z.eqb_spec n 5) as [->|N5]; [destruct (k =? 2)%nat; reflexivity|].
    destruct n as [|[[[| |]|[| |]|]|[[| |]|[| |]|]|]|]; try reflexivity; lia.
  Qed.

  Lemma short_step : forall s p q b0 b1 b2 b s' es, Lk m s -> ready s p q -> short_form s p b0 b1 b2 ->
    execute E s = Ok (b, s', es) ->
    b = true /\ exists k e1 e2, es = e1 ++ e2 /\ storing s e1 /\ nth_in_row s p k /\ counted s' p k /\
      accesses e2 = if locked s then [] else short_request k b0 b1 b2.
  Proof.
    intros s p q b0 b1 b2 b s' es Hlk0 Hr (Hsv & Hb & Hf & Hrange & n & t & Ha & Hc & Hbody) He.
    assert (3 <= length p)%nat as Hl by (pose proof (body_length p) as L; rewrite Hbody in L; cbn [length] in L; lia).
    destruct (execute_housekeeping E s p q Hr) as (s1 & e1 & Hh & Hk & Hp & Hs & Hx).
    pose proof (body_bytes p Hb) as Hbb. rewrite Hbody in Hbb.
    inversion Hbb as [|? ? H0 Hb']; subst. inversion Hb' as [|? ? H1 Hb'']; subst. inversion Hb'' as [|? ? H2 _]; subst.
    assert (r_deque (rxs s1) = p :: q) as Hd1 by (unfold hk in Hk; destruct Hr; congruence).
    assert (r_addrs (rxs s1) = r_addrs (rxs s)) as Had by (unfold hk in Hk; congruence).
    assert (r_conf (rxs s1) = r_conf (rxs s)) as Hcf by (unfold hk in Hk; congruence).
    assert (r_cv (rxs s1) = r_cv (rxs s)) as Hcv by (unfold hk in Hk; congruence).
    assert (in_service s1 = false) as Hsv1 by (unfold in_service in *; congruence).
    destruct (command_operations E s1 p q Hsv1 Hd1 Hb Hl) as [(_ & n' & Ha' & Hcmd)|(Hno & _)].
    2: { exfalso. apply Hno. rewrite Had. split; [exact Hf|]. exists n. exact Ha. }
    rewrite Had in Ha'. rewrite <- (acts_as_fun _ _ _ _ Ha Ha') in Hcmd. clear n' Ha'.
    rewrite He, Hcmd in Hx. unfold bind at 1 in Hx.
    destruct (dispatch E n (body_of p) s1) as [[[u s2] e2]|] eqn:Hd; [|discriminate].
    cbn [ret] in Hx. rewrite app_nil_r in Hx. split; [unfold ret in Hx; congruence|].
    rewrite Hbody in Hd. unfold dispatch in Hd. rewrite decode_instruction_spec in Hd by assumption.
    rewrite bind_lift, (class_of b0 15 16 ICvShort H0 eq_refl) in Hd by (unfold byte in H0; lia).
    unfold cvShort in Hd. rewrite bind_get in Hd.
    destruct (negb (n =? 0) && (n =? aval (consist (r_addrs (rxs s1))))) eqn:En.
    { exfalso. apply Hc. apply andb_true_iff in En. destruct En as [E1 E2]. apply negb_true_iff, Z.eqb_neq in E1.
      apply Z.eqb_eq in E2. rewrite Had in E2. split; assumption. }
    destruct (count_spec s1 p q Hd1) as (s3 & k & Hcount & Hkk & Hcnt & Hconf3 & Haddr3 & Hby3 & Hdq3 & Happ3 & _).
    unfold bind at 1 in Hd. rewrite Hcount in Hd. rewrite bind_get in Hd.
    match type of Hd with match ?x with _ => _ end = _ => destruct x as [[[u1 s4] e3]|] eqn:Ex; [|discriminate] end.
    assert (s4 = s2) as -> by congruence. assert (e2 = e3) as -> by (cbn [List.app] in Hd; congruence). clear Hd.
    exists k, e1, e3. split; [unfold ret in Hx; congruence|]. split; [exact Hs|]. split; [exact (nth_hk _ _ _ _ Hk Hkk)|].
    assert (s' = pop q s2) as -> by (unfold ret in Hx; congruence).
    change (counted (pop q s2) p k) with (counted s2 p k).
    assert (Hl3 : locked s3 = locked s) by (unfold locked; congruence).
    assert (K3 : Lk m s3).
    { assert (Lk m s1) as K1 by exact (still_lawful m _ _ (still_housekeeping E m Hm) _ _ _ _ Hh Hlk0).
      unfold Lk in *. rewrite Happ3. unfold locked in *. congruence. }
    rewrite <- Hl3. cbn [at_ nth_error] in Ex. rewrite !bind_ret in Ex.
    destruct Hcnt as [Hc1 Hc2]. unfold cv_packet_count in Hc2. rewrite Hc2 in Ex.
    assert (Hcnt : counted s3 p k) by (split; assumption). clear Hc1 Hc2.
    rewrite short_spec by assumption. cbv zeta in Ex |- *.
    assert (Hret : forall s3 s2 e3, ret (I := I) tt s3 = Ok (u1, s2, e3) -> counted s3 p k ->
              counted s2 p k /\ accesses e3 = if locked s3 then [] else []).
    { intros t3 t2 f3 X C. unfold ret in X. assert (t2 = t3) as -> by congruence. assert (f3 = []) as -> by congruence.
      split; [exact C|destruct (locked t3); reflexivity]. }
    assert (Hone : forall a v s3 s2 e3, a <> 14 -> cvWrite E a v s3 = Ok (u1, s2, e3) -> counted s3 p k ->
              counted s2 p k /\ accesses e3 = if locked s3 then [] else [Store a v]).
    { intros a v t3 t2 f3 Ha14 X C. split; [exact (keep_counter_short _ _ _ _ _ _ _ _ X C)|].
      rewrite (cvWrite_acc E _ _ _ _ _ _ X). apply permitted_not15.
      apply Forall_cons; [split; [reflexivity|exact Ha14]|apply Forall_nil]. }
    assert (Htwo : forall a v (f : M (I := I) unit) l s3 s2 e3, a <> 14 -> a <> 15 -> Lk m s3 -> counted s3 p k ->
              bind (cvWrite E a v) (fun _ => f) s3 = Ok (u1, s2, e3) ->
              (forall s3 s2 e3, Lk m s3 -> f s3 = Ok (u1, s2, e3) -> counted s3 p k -> counted s2 p k /\ accesses e3 = if locked s3 then [] else l) ->
              counted s2 p k /\ accesses e3 = if locked s3 then [] else Store a v :: l).
    { intros a v f l t3 t2 f3 Ha14 Ha15 K C X Hf3. apply bind_inv in X.
      destruct X as (w & t4 & f1 & f2 & X1 & X2 & ->).
      destruct (lock_after_write a v _ _ _ _ Ha14 Ha15 K X1) as [K4 L4].
      assert (C4 := keep_counter_short _ _ _ _ _ _ _ _ X1 C).
      destruct (Hf3 _ _ _ K4 X2 C4) as [C2 A2]. split; [exact C2|].
      rewrite accesses_app, A2, L4, (cvWrite_acc E _ _ _ _ _ _ X1), permitted_not15;
        [|apply Forall_cons; [split; [reflexivity|exact Ha14]|apply Forall_nil]].
      destruct (locked t3); reflexivity. }
    destruct (Z.land b0 15 =? 2).
    { rewrite bind_ret in Ex. exact (Hone 22 b1 _ _ _ ltac:(discriminate) Ex Hcnt). }
    destruct (Z.land b0 15 =? 3).
    { rewrite bind_ret in Ex. exact (Hone 23 b1 _ _ _ ltac:(discriminate) Ex Hcnt). }
    destruct (Z.land b0 15 =? 4).
    { destruct (negb (k =? 2)%nat); [exact (Hret _ _ _ Ex Hcnt)|]. rewrite bind_ret in Ex.
      apply (Htwo 16 _ _ _ _ _ _ ltac:(discriminate) ltac:(discriminate) K3 Hcnt Ex).
      intros t3 t2 f3 K X C. rewrite bind_ret in X.
      apply (Htwo 17 _ _ _ _ _ _ ltac:(discriminate) ltac:(discriminate) K C X).
      intros t5 t6 f5 K5 Y C5. split; [exact (counted_keep _ _ _ _ (keep_counter_writeBit E _ _ _ _ _ _ _ Y) C5)|].
      rewrite (cvWriteBit_acc E _ _ _ _ _ _ _ Y). apply permitted_not15.
      apply Forall_cons; [split; [reflexivity|discriminate]|apply Forall_nil]. }
    destruct (Z.land b0 15 =? 5).
    { destruct (negb (k =? 2)%nat); [exact (Hret _ _ _ Ex Hcnt)|]. rewrite bind_ret in Ex.
      apply (Htwo 30 _ _ _ _ _ _ ltac:(discriminate) ltac:(discriminate) K3 Hcnt Ex).
      intros t3 t2 f3 K X C. rewrite bind_ret in X. exact (Hone 31 b2 _ _ _ ltac:(discriminate) X C). }
    exact (Hret _ _ _ Ex Hcnt).
  Qed.
End Short.
