(** Driving and function instructions by themselves *)
From Verif Require Import Prelude Address Instruction Speed Datagram ZBits SpecCodec RxState Rx CodecProofs CodecProofs2
  RxLogic SpecRx RxBitProofs RxBitProofs4 SpecExec ExecProofs.
Local Ltac Zify.zify_post_hook ::= Z.div_mod_to_equations.

Section Says.
  Context {I : Type} (E : Env I).
  Implicit Types s : st I.

  Lemma dispatch_126 : forall s n b t, byte b -> says E (dispatch E n (0x3F :: b :: t)) s (speed126_calls (r_addrs (rxs s)) n b).
  Proof.
    intros s n b t Hb. unfold dispatch. cbn [decode_instruction]. unfold says. rewrite bind_lift.
    cbn -[advancedOperations]. unfold advancedOperations. cbn [at_ nth_error]. rewrite bind_ret.
    cbn [Z.eqb Pos.eqb]. apply says_speed126; [exact Hb|reflexivity].
  Qed.

  Lemma dispatch_28 : forall s n b t, 0x40 <= b < 0x80 ->
    says E (dispatch E n (b :: t)) s (speed28_calls (r_addrs (rxs s)) (f0_exception (r_conf (rxs s))) n b).
  Proof.
    intros s n b t Hrange. assert (byte b) as Hb0 by (unfold byte; lia). unfold dispatch.
    rewrite decode_instruction_spec by assumption. unfold says. rewrite bind_lift.
    rewrite (class_of b 4 8 ISpeedDirection Hb0 eq_refl) by lia.
    unfold speedAndDirection. cbn [at_ nth_error]. rewrite bind_ret. unfold speed28_calls.
    rewrite land_0F.
    assert (Hs := sweep (fun b => Bool.eqb (96 <=? b) (Z.testbit b 5) && Bool.eqb (negb (b mod 16 =? 0) && (Z.land b 0x0E =? 0)) (b mod 16 =? 1)
                     && (b / 16 mod 2 =? (if Z.testbit b 4 then 1 else 0))) 64 64 ltac:(vm_compute; reflexivity) b Hrange).
    cbn beta in Hs. apply andb_true_iff in Hs. destruct Hs as [Hs H5]. apply andb_true_iff in Hs. destruct Hs as [H3 H4].
    apply eqb_prop in H3, H4. apply Z.eqb_eq in H5. rewrite H3, H4, H5.
    destruct (b mod 16 =? 1) eqn:E1; [reflexivity|]. rewrite bind_get. apply Z.eqb_neq in E1.
    destruct (f0_exception (r_conf (rxs s))) eqn:Ef.
    - change (EFunction n 1 (if Z.testbit b 4 then 1 else 0) :: ?r) with ([EFunction n 1 (if Z.testbit b 4 then 1 else 0)] ++ r).
      apply says_seq; [apply says_call|]. unfold drive.
      destruct (b mod 16 =? 0) eqn:E0; [apply says_drive; auto|].
      apply Z.eqb_neq in E0. rewrite scale_speed_value by (cbn [In]; auto; lia). apply says_drive; auto.
    - unfold drive. destruct (b mod 16 =? 0) eqn:E0; [apply says_drive; auto|]. apply Z.eqb_neq in E0.
      assert ((if negb (Z.shiftl (b mod 16 - 1) 1 =? 0) && negb (Z.testbit b 4)
               then Z.shiftl (b mod 16 - 1) 1 - 1 else Z.shiftl (b mod 16 - 1) 1)
              = 2 * (b mod 16) - 3 + (if Z.testbit b 4 then 1 else 0)) as ->.
      { rewrite Z.shiftl_mul_pow2 by lia. change (2 ^ 1) with 2.
        replace ((b mod 16 - 1) * 2 =? 0) with false by (symmetry; apply Z.eqb_neq; lia).
        destruct (Z.testbit b 4); cbn [negb andb]; lia. }
      rewrite scale_speed_value by (cbn [In]; auto; destruct (Z.testbit b 4); lia). apply says_drive; auto.
  Qed.

  Lemma dispatch_group : forall s n b t, 0x80 <= b < 0xC0 ->
    says E (dispatch E n (b :: t)) s [function_group_call (f0_exception (r_conf (rxs s))) n b].
  Proof.
    intros s n b t Hrange. assert (byte b) as Hb0 by (unfold byte; lia). unfold dispatch.
    rewrite decode_instruction_spec by assumption. unfold says. rewrite bind_lift.
    rewrite (class_of b 8 12 IFunctionGroup Hb0 eq_refl) by lia.
    unfold functionGroup. cbn [at_ nth_error]. rewrite bind_ret, bind_get.
    unfold function_group_call, functions.
    set (f14 := f0_exception (r_conf (rxs s))).
    assert (Hs : forall f14 : bool,
      (if (Z.land b 0xF0 =? 0x80) || (Z.land b 0xF0 =? 0x90)
       then (if f14 then 0x1E else 0x1F, Z.lor (Z.shiftl (Z.land b 0x0F) 1) (Z.shiftr (Z.land b 0x10) 4))
       else if Z.land b 0xF0 =? 0xB0 then (0x1E0, Z.shiftl (Z.land b 0x0F) 5)
       else if Z.land b 0xF0 =? 0xA0 then (0x1E00, Z.shiftl (Z.land b 0x0F) 9) else (0, 0))
      = (if b <? 0xA0 then (if f14 then 0x1E else 0x1F, 2 * (b mod 16) + b / 16 mod 2)
         else if b <? 0xB0 then (0x1E00, (b mod 16) * 512) else (0x1E0, (b mod 16) * 32))).
    { intros f. set (eqp := fun x y : Z * Z => (fst x =? fst y) && (snd x =? snd y)).
      assert (Heqp : forall x y, eqp x y = true -> x = y).
      { intros [x1 x2] [y1 y2] H. unfold eqp in H. cbn [fst snd] in H. apply andb_true_iff in H.
        destruct H as [Hx Hy]. apply Z.eqb_eq in Hx, Hy. subst. reflexivity. }
      apply Heqp. destruct f; (match goal with |- ?t = true => let F := eval pattern b in t in
        match F with ?P _ => apply (sweep P 128 64); [vm_compute; reflexivity|exact Hrange] end end). }
    rewrite Hs. destruct (b <? 0xA0); [destruct f14|destruct (b <? 0xB0)]; cbv beta iota zeta;
      try (change (2 ^ 0) with 1; rewrite !Z.mul_1_r); apply says_call.
  Qed.

  Lemma dispatch_expansion : forall s n b v t, byte v -> b = 0xDE \/ b = 0xDF ->
    says E (dispatch E n (b :: v :: t)) s [functions n (if b =? 0xDE then 13 else 21) 8 v].
  Proof.
    intros s n b v t Hv Hrange. assert (byte b) as Hb0 by (unfold byte; lia). unfold byte in Hv. unfold dispatch.
    rewrite decode_instruction_spec by assumption. unfold says. rewrite bind_lift.
    rewrite (class_of b 12 14 IFeatureExpansion Hb0 eq_refl) by lia.
    unfold featureExpansion. cbn [at_ nth_error]. rewrite !bind_ret.
    destruct Hrange as [-> | ->]; cbn [Z.eqb Pos.eqb]; unfold functions, u32;
      rewrite bind_ret, Z.shiftl_mul_pow2, Z.mod_small by lia; reflexivity.
  Qed.

  Lemma dispatch_combined : forall s n b fs c, byte b -> Forall byte fs ->
    says E (dispatch E n (0x3C :: b :: fs ++ [c])) s (combined true n 0 (firstn 4 fs) ++ speed126_calls (r_addrs (rxs s)) n b).
  Proof.
    intros s n b fs c Hv Hfs. assert (byte 0x3C) as Hb0 by (unfold byte; lia). unfold dispatch.
    rewrite decode_instruction_spec by assumption. unfold says. rewrite bind_lift.
    rewrite (class_of 0x3C 2 4 IAdvancedOperations Hb0 eq_refl) by lia.
    unfold advancedOperations. change (at_ (0x3C :: ?r) 0) with (ret (I := I) 0x3C). rewrite bind_ret.
    change (0x3C =? 0x3C) with true. cbv iota zeta.
    assert (Hsh : forall v k, byte v -> 0 <= k <= 24 -> u32 (Z.shiftl v k) = v * 2 ^ k).
    { intros v k Hvb Hk. rewrite Z.shiftl_mul_pow2 by lia. unfold u32. apply Z.mod_small.
      unfold byte in Hvb. assert (2 ^ k <= 2 ^ 24) by (apply Z.pow_le_mono_r; lia).
      assert (0 < 2 ^ k) by (apply Z.pow_pos_nonneg; lia). change (2 ^ 24) with 16777216 in *. nia. }
    assert (Hlen : length (fs ++ [c]) = S (length fs)) by (rewrite app_length; cbn [length]; lia).
    destruct fs as [|f0 [|f1 [|f2 [|f3 fs]]]]; cbn [firstn combined andb Z.eqb Pos.eqb Z.add Pos.add List.app length] in *;
      rewrite ?Hlen; unfold functions; unfold when; cbn [Nat.ltb Nat.leb at_ nth_error].
    all: repeat match goal with H : Forall byte (_ :: _) |- _ => inversion H; subst; clear H end.
    all: repeat first
      [ rewrite bind_ret
      | match goal with |- bind (bind (ret _) _) _ _ = _ => rewrite bind_assoc, bind_ret end
      | match goal with |- bind (call E ?e) ?k ?s = Ok (_, _, ?e' :: ?r) =>
          apply (says_cons E e e' (k tt) s r); [rewrite ?Hsh by (assumption || lia); reflexivity|]; unfold says
        end ].
    all: apply says_speed126; [assumption|reflexivity].
  Qed.

  Lemma says_events : forall f s es u s' es', says E f s es -> f s = Ok (u, s', es') -> es' = es.
  Proof. intros f s es u s' es' H K. unfold says in H. congruence. Qed.
End Says.
