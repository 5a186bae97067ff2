(** The answer that waits for channel 2: execution of a packet *)
From Verif Require Import Prelude Address Instruction Datagram ZBits SpecCodec RxState Rx CodecProofs CodecProofs2 RxLogic SpecRx RxBitProofs
  SpecExec ExecProofs SpecConf ConfProofs ConfProofs2 SpecCv CvProofs CvProofs2 CvProofs3 CvProofs4 CvProofs5 CvProofs7 SpecBidi SpecLayout
  LayoutProofs LayoutProofs2 LayoutProofs3 LayoutProofs4 SpecDialog DialogProofs.
Local Ltac Zify.zify_post_hook ::= Z.div_mod_to_equations.

Lemma answer_service : forall xs v w, v_service v = true -> answer xs v w = w.
Proof. induction xs as [|[e|x] xs IH]; intros v w H; cbn [answer]; [reflexivity|apply IH; exact H|]. rewrite H. cbn [negb andb]. apply IH. exact H. Qed.
Lemma answer_tells : forall es v w, answer (map Told es) v w = w.
Proof. induction es as [|e es IH]; intros v w; [reflexivity|]. cbn [map answer]. apply IH. Qed.
Lemma last_perform : forall x v, v_last (fst (perform x v)) = v_last v.
Proof. intros x v. unfold perform. destruct (permitted _ x); reflexivity. Qed.
Lemma last_all : forall xs v, v_last (fst (perform_all xs v)) = v_last v.
Proof.
  induction xs as [|x xs IH]; intros v; [reflexivity|]. rewrite next_all. unfold next. cbn [fst]. rewrite IH. apply last_perform.
Qed.
Lemma kept_same : forall p v w, (if list_eq_dec Z.eq_dec p (v_last v) then w else None) = kept_for p v w.
Proof. reflexivity. Qed.
Lemma kept_self : forall A (l : list Z) (w z : A), (if list_eq_dec Z.eq_dec l l then w else z) = w.
Proof. intros A l w z. destruct (list_eq_dec Z.eq_dec l l); congruence. Qed.

Section Execute.
  Context {I : Type} (E : Env I) (m : I -> Z -> Z) (able : access -> Prop) (Hk : keeps_cvs able E m).
  Implicit Types s : st I.
  Let Hm : cv_memory E m := proj1 Hk.
  Notation Sim := (Sim m).

  Lemma wait_housekeeping : forall v w s u s' es, Sim v s -> W w s -> housekeeping E s = Ok (u, s', es) -> W w s'.
  Proof.
    intros v w s u s' es HS HW H. apply (W_kept w s); [|exact HW]. unfold housekeeping in H.
    apply bind_inv in H. destruct H as (u1 & s1 & e1 & e2 & H1 & H & _).
    apply bind_inv in H. destruct H as (u2 & s2 & e3 & e4 & H2 & H & _).
    assert (keeps wait (@adr I)) as K1 by keeps_tac.
    pose proof (K1 _ _ _ _ H1) as K. clear K1.
    assert (keeps (fun r => logon_store (r_logon r)) (@adr I)) as K2 by keeps_tac. pose proof (K2 _ _ _ _ H1) as Kl. cbn beta in Kl.
    assert (logon_store (r_logon (rxs s)) = false) as El by (destruct HS as (_ & _ & HS & _); unfold regs in HS; congruence).
    unfold logonStore in H2. rewrite bind_get, Kl, El in H2. cbn [negb] in H2. unfold ret in H2. assert (s2 = s1) as -> by congruence.
    rewrite <- K. match type of H with ?f s1 = _ => assert (keeps wait f) as K3 by keeps_tac; exact (K3 _ _ _ _ H) end.
  Qed.

  Lemma wait_pop : forall w s q, W w s -> W w (pop q s).
  Proof. intros w s q. apply W_kept. reflexivity. Qed.

  Lemma wait_quiet : forall A (f : M (I := I) A) w s u s' es, keeps wait f -> W w s -> f s = Ok (u, s', es) -> W w s'.
  Proof. intros A f w s u s' es K HW H. exact (W_kept w s s' (K _ _ _ _ H) HW). Qed.

  Lemma wait_operations : forall v w s p q b s' es, reached E s -> ready s p q -> Sim v s -> W w s -> v_service v = false ->
    execute E s = Ok (b, s', es) ->
    Forall (allowed able) (snd (operations (e_east_west E) p v)) ->
    W (reply (e_east_west E) p v w) s'.
  Proof.
    intros v w s p q b s' es Hre Hr HS HW Hsv H Hra. unfold reply, obey. rewrite Hsv.
    destruct (reached_ready E s p q Hre Hr) as [Hb Hl].
    assert (in_service s = false) as Hmode by (unfold in_service; rewrite (sim_mode m v s HS); exact Hsv).
    destruct (execute_housekeeping E s p q Hr) as (s1 & e1 & Hh & Hhk & Hp & Hst & He).
    destruct (sim_housekeeping E m able Hk s v tt s1 e1 HS Hh (Forall_nil _)) as [HS1 _]. cbn [fst idle] in HS1.
    pose proof (wait_housekeeping v w s tt s1 e1 HS HW Hh) as HW1.
    assert (e1 = []) as ->.
    { apply (proj2 Hst). destruct HS as (_ & _ & HS & _). unfold regs in HS. congruence. }
    assert (r_addrs (rxs s1) = r_addrs (rxs s)) as Had by (unfold hk in Hhk; congruence).
    assert (r_deque (rxs s1) = p :: q) as Hd by (unfold hk in Hhk; destruct Hr; congruence).
    assert (in_service s1 = false) as Hm1 by (unfold in_service in *; unfold hk in Hhk; congruence).
    rewrite He in H.
    destruct (command_operations E s1 p q Hm1 Hd Hb Hl) as [(Hf & n & Ha & Hc)|(Hn & Hc)].
    2: { rewrite Hc in H. assert (recipient (v_cvs v) p = None) as Hnone.
         { destruct (recipient (v_cvs v) p) as [n|] eqn:Er; [|reflexivity].
           apply (recipient_spec m v s1 p n HS1) in Er. elim Hn. split; [apply Er|]. exists n. apply Er. }
         unfold operations. rewrite Hnone. cbn [fst snd answer]. rewrite kept_self.
         assert (s' = pop q s1) as -> by congruence. apply wait_pop. exact HW1. }
    assert (recipient (v_cvs v) p = Some n) as Hrec by (apply (recipient_spec m v s1 p n HS1); split; [exact Hf|exact Ha]).
    destruct (executeCommand E s1) as [[[b2 s2] e2]|r] eqn:Ec; [|discriminate].
    assert (s' = pop q s2) as -> by congruence. clear H He. apply wait_pop.
    symmetry in Hc. apply bind_inv in Hc. destruct Hc as ([] & s3 & e3 & e4 & Hdis & Hret & ->).
    unfold ret in Hret. assert (s2 = s3) as -> by congruence. clear Hret Ec.
    unfold operations in *. rewrite Hrec in *.
    pose proof (body_bytes p Hb) as Hbb. pose proof (body_nonempty p Hl) as Hbn.
    destruct (body_of p) as [|b0 t] eqn:Ebody; [congruence|]. clear Hbn.
    inversion Hbb as [|? ? Hb0 Hbt]; subst. rewrite (dispatch_class E n b0 t s1 Hb0) in Hdis. unfold byte in Hb0.
    assert (Hb0' : byte b0) by exact Hb0.
    destruct (Z.ltb_spec b0 0x10).
    { rewrite (class_of b0 0 1 IDecoderControl Hb0' eq_refl ltac:(lia)) in Hdis.
      assert (W w s3) as HW3 by (refine (wait_quiet _ _ _ _ _ _ _ _ HW1 Hdis); keeps_tac).
      destruct ((n =? 0) && (b0 =? 0)); cbn [fst snd answer with_service v_last]; rewrite kept_self; exact HW3. }
    destruct (Z.ltb_spec b0 0x20).
    { rewrite (class_of b0 1 2 IConsistControl Hb0' eq_refl ltac:(lia)) in Hdis.
      unfold consistControl in Hdis. cbn [at_ nth_error] in Hdis. rewrite bind_ret in Hdis.
      destruct t as [|b1 t]; [discriminate Hdis|]. inversion Hbt as [|? ? Hb1 _]; subst.
      cbn [at_ nth_error] in Hdis. rewrite bind_ret in Hdis. cbn [hd] in *. change (19 - 1) with 18 in *.
      pose proof (consist_byte b0 b1 Hb0' Hb1) as Eu. rewrite Eu in Hdis.
      assert (Hby : byte (b1 mod 128 + 128 * Z.b2z (Z.odd b0 || (128 <=? b1)))) by (rewrite <- Eu; apply u8_byte).
      rewrite last_perform, kept_self.
      exact (replies_cvWrite E m able Hk 18 _ Hby _ _ _ _ _ _ HS1 HW1 Hdis Hra). }
    destruct (Z.ltb_spec b0 0xE0).
    { cbn [fst snd]. rewrite answer_tells, kept_self.
      assert (nibble_class (b0 / 16) = IAdvancedOperations \/ nibble_class (b0 / 16) = ISpeedDirection \/
              nibble_class (b0 / 16) = IFunctionGroup \/ nibble_class (b0 / 16) = IFeatureExpansion) as Hcl.
      { destruct (Z.ltb_spec b0 0x40); [left; exact (class_of b0 2 4 IAdvancedOperations Hb0' eq_refl ltac:(lia))|right].
        destruct (Z.ltb_spec b0 0x80); [left; exact (class_of b0 4 8 ISpeedDirection Hb0' eq_refl ltac:(lia))|right].
        destruct (Z.ltb_spec b0 0xC0); [left; exact (class_of b0 8 12 IFunctionGroup Hb0' eq_refl ltac:(lia))|right].
        exact (class_of b0 12 14 IFeatureExpansion Hb0' eq_refl ltac:(lia)). }
      destruct Hcl as [Hcl|[Hcl|[Hcl|Hcl]]]; rewrite Hcl in Hdis; (refine (wait_quiet _ _ _ _ _ _ _ _ HW1 Hdis); keeps_tac). }
    destruct (negb (n =? 0) && (n =? aval (consist_address (v_cvs v)))) eqn:Econ.
    { cbn [fst snd answer]. rewrite kept_self. pose proof (sim_consist m v s1 HS1) as Hco.
      destruct (Z.ltb_spec b0 0xF0).
      - rewrite (class_of b0 14 15 ICvLong Hb0' eq_refl ltac:(lia)) in Hdis. unfold cvLong in Hdis.
        rewrite bind_get, Hco, Econ in Hdis. exact (done_wait _ _ _ _ _ HW1 Hdis).
      - rewrite (class_of b0 15 16 ICvShort Hb0' eq_refl ltac:(lia)) in Hdis. unfold cvShort in Hdis.
        rewrite bind_get, Hco, Econ in Hdis. exact (done_wait _ _ _ _ _ HW1 Hdis). }
    cbv zeta in Hra |- *. rewrite last_all. change (v_last (count p v)) with p. rewrite kept_same.
    rewrite (answer_ext _ v (count p v)) by reflexivity.
    destruct (Z.ltb_spec b0 0xF0).
    - rewrite (class_of b0 14 15 ICvLong Hb0' eq_refl ltac:(lia)) in Hdis.
      pose proof (replies_cvLong E m able Hk n b0 t p q s1 v w tt s3 e3 Hd Hbb Econ HS1 HW1 Hdis) as K. cbv zeta in K.
      rewrite Hsv in K. cbn [andb] in K. exact (K Hra).
    - rewrite (class_of b0 15 16 ICvShort Hb0' eq_refl ltac:(lia)) in Hdis.
      exact (replies_cvShort E m able Hk n b0 t p q s1 v w tt s3 e3 Hd Hbb Econ HS1 HW1 Hdis Hra).
  Qed.

  Lemma wait_service : forall v w s p q u s' es, Forall byte p -> (3 <= length p)%nat -> r_deque (rxs s) = p :: q ->
    Sim v s -> W w s -> v_service v = true -> byte (v_page v) -> executeService E s = Ok (u, s', es) ->
    Forall (allowed able) (snd (service p v)) -> W (reply (e_east_west E) p v w) s'.
  Proof.
    intros v w s p q u s' es Hb Hl Hd HS HW Hsv Hpg H Hr. unfold reply. rewrite answer_service by exact Hsv. unfold obey. rewrite Hsv.
    unfold executeService in H. rewrite bind_get, Hd, bind_ret in H.
    destruct p as [|b0 p]; [cbn in Hl; lia|]. inversion Hb as [|? ? Hb0 Hbp]; subst.
    cbn [at_ nth_error] in H. rewrite bind_ret in H.
    apply bind_inv in H. destruct H as ([] & s3 & e3 & e4 & E1 & E2 & ->).
    unfold ret in E2. assert (s' = s3) as -> by congruence. clear E2.
    rewrite land_F0 in E1 by exact Hb0. unfold service in *. cbn [nth] in Hr |- *. unfold byte in Hb0.
    destruct (b0 =? 0); [cbn [fst]; rewrite kept_self; exact (done_wait _ _ _ _ _ HW E1)|].
    replace (16 * (b0 / 16) =? 112) with (b0 / 16 =? 7) in E1
      by (destruct (Z.eqb_spec (16 * (b0 / 16)) 112), (Z.eqb_spec (b0 / 16) 7); lia).
    destruct (negb (b0 / 16 =? 7)).
    { cbn [fst with_service v_last]. rewrite kept_self. refine (wait_quiet _ _ _ _ _ _ _ _ HW E1). keeps_tac. }
    destruct (Nat.eqb_spec (length (b0 :: p)) 3) as [L3|_].
    { destruct p as [|b1 p]; [discriminate L3|]. inversion Hbp as [|? ? Hb1 _]; subst. cbn [nth] in Hr |- *.
      match goal with |- W (if list_eq_dec _ (v_last (fst ?x)) _ then _ else _) _ => assert (v_last (fst x) = v_last v) as -> end.
      { destruct (b0 mod 8 =? 5); [destruct (bit_of b0 3); reflexivity|apply last_perform]. }
      rewrite kept_self. unfold registerMode in E1. cbn [at_ nth_error] in E1. rewrite bind_ret, bind_get in E1. cbv zeta in E1.
      rewrite land_7, testbit_bit in E1 by lia.
      assert (index_reg (r_cv (rxs s)) = v_page v) as Hpg2 by (destruct HS as (_ & _ & HS & _); unfold regs in HS; congruence).
      rewrite Hpg2 in E1.
      assert (K : forall a, a = register_cv (v_page v) (b0 mod 8) mod 2 ^ 32 -> b0 mod 8 <> 5 ->
        (if bit_of b0 3 then cvWrite E a b1 else cvVerify E a b1) s = Ok (tt, s3, e3) -> W w s3).
      { intros a Ha Hn Hx. rewrite (proj2 (Z.eqb_neq _ _) Hn) in Hr. rewrite <- Ha in Hr.
        destruct (bit_of b0 3); [pose proof (replies_cvWrite E m able Hk a b1 Hb1 _ _ _ _ _ _ HS HW Hx Hr) as K|pose proof (replies_cvVerify E m able Hk a b1 _ _ _ _ _ _ HS HW Hx Hr) as K];
          rewrite answer_service in K by exact Hsv; exact K. }
      pose proof (Z.mod_pos_bound b0 8 ltac:(lia)) as Hb8. unfold byte in Hpg.
      destruct (Z.eqb_spec (b0 mod 8) 5) as [E5|N5].
      - clear K. rewrite E5 in E1. cbn [Z.leb Z.compare Pos.compare Pos.compare_cont Z.eqb Pos.eqb] in E1. rewrite bind_ret in E1.
        refine (wait_quiet _ _ _ _ _ _ _ _ HW E1). keeps_tac.
      - unfold register_cv in K.
        destruct (Z.leb_spec (b0 mod 8) 3).
        { rewrite bind_ret in E1. destruct (Z.ltb_spec (b0 mod 8) 4); [|lia].
          apply (K (u32 (v_page v * 4 - (4 - b0 mod 8)))); [|exact N5|exact E1]. unfold u32. f_equal. lia. }
        destruct (Z.ltb_spec (b0 mod 8) 4); [lia|].
        destruct (Z.eqb_spec (b0 mod 8) 4) as [E4|N4].
        { rewrite bind_ret in E1. apply (K 28); [reflexivity|exact N5|exact E1]. }
        rewrite bind_ret in E1. apply (K (b0 mod 8)); [symmetry; apply Z.mod_small; lia|exact N5|exact E1]. }
    destruct (Nat.eqb_spec (length (b0 :: p)) 4) as [L4|_]; [|cbn [fst]; rewrite kept_self; exact (done_wait _ _ _ _ _ HW E1)].
    pose proof (replies_cvLong E m able Hk 0 b0 p (b0 :: p) q s v w tt s3 e3 Hd Hb eq_refl HS HW E1) as K. cbv zeta in K.
    rewrite answer_service in K by exact Hsv.
    rewrite Hsv in K. cbn [andb] in K. cbv zeta in Hr |- *. rewrite last_all.
    change (v_last (count (b0 :: p) v)) with (b0 :: p). rewrite kept_same.
    set (v1 := count (b0 :: p) v) in *.
    destruct (Nat.eqb_spec (v_times v1) 2) as [E2|N2]; cbn [negb] in K.
    - rewrite E2, due_second in K. exact (K Hr).
    - exact (K Hr).
  Qed.

  Lemma wait_execute : forall v w s p q b s' es, reached E s -> Sim v s -> W w s -> byte (v_page v) -> ready s p q ->
    execute E s = Ok (b, s', es) -> Forall (allowed able) (snd (obey (e_east_west E) p v)) ->
    W (reply (e_east_west E) p v w) s'.
  Proof.
    intros v w s p q b s' es Hre HS HW Hpg Hr H Hra. unfold obey in Hra. destruct (v_service v) eqn:Hsv.
    2: exact (wait_operations v w s p q b s' es Hre Hr HS HW Hsv H Hra).
    destruct (reached_ready E s p q Hre Hr) as [Hb Hl].
    destruct (execute_housekeeping E s p q Hr) as (s1 & e1 & Hh & Hhk & Hp & Hst & He).
    destruct (sim_housekeeping E m able Hk s v tt s1 e1 HS Hh (Forall_nil _)) as [HS1 _]. cbn [fst idle] in HS1.
    pose proof (wait_housekeeping v w s tt s1 e1 HS HW Hh) as HW1.
    assert (r_deque (rxs s1) = p :: q) as Hd by (unfold hk in Hhk; destruct Hr; congruence).
    rewrite He in H. unfold executeCommand in H. rewrite bind_get, (sim_mode m v s1 HS1), Hsv in H.
    destruct (executeService E s1) as [[[b2 s2] e2]|r] eqn:Ec; [|discriminate].
    assert (s' = pop q s2) as -> by congruence. apply wait_pop.
    exact (wait_service v w s1 p q b2 s2 e2 Hb Hl Hd HS1 HW1 Hsv Hpg Ec Hra).
  Qed.
End Execute.
