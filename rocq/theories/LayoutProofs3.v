(** The decoder model simulates the interpreter: execution of a packet *)
From Verif Require Import Prelude Address Instruction Datagram ZBits SpecCodec RxState Rx CodecProofs CodecProofs2 RxLogic SpecRx RxBitProofs
  SpecExec ExecProofs SpecConf ConfProofs ConfProofs2 SpecCv CvProofs CvProofs2 CvProofs4 CvProofs5 CvProofs7 SpecLayout LayoutProofs LayoutProofs2.
Local Ltac Zify.zify_post_hook ::= Z.div_mod_to_equations.

Ltac quiet1 H :=
  lazymatch goal with
  | |- quiet _ (bind _ _) => apply quiet_bind; [|intro]
  | |- quiet _ (ret _) => apply quiet_ret
  | |- quiet _ (fail _) => apply quiet_fail
  | |- quiet _ (lift _) => apply quiet_lift
  | |- quiet _ get => apply quiet_get
  | |- quiet _ (at_ _ _) => apply quiet_at
  | |- quiet _ (readCvByte _ _ _) => apply (quiet_readCvByte _ _ H)
  | |- quiet _ (readCvBit _ _ _ _) => apply (quiet_readCvBit _ _ H); rewrite ?land_7; lia
  | |- quiet _ (call _ _) => apply (quiet_call _ _ H); intros []
  | |- quiet _ (rand _) => apply (quiet_rand _ _ H)
  | |- quiet _ (now _) => apply (quiet_now _ _ H)
  | |- quiet _ (modify _) => apply quiet_modify; intro; reflexivity
  | |- quiet _ (if ?b then _ else _) => destruct b
  | |- quiet _ (match ?x with _ => _ end) => destruct x
  | |- quiet _ (let _ := _ in _) => cbv zeta
  | |- quiet _ ?f => let h := head_of f in unfold h
  end.
Ltac quiet_tac H := repeat quiet1 H.

Lemma consist_byte : forall b0 b1, byte b0 -> byte b1 ->
  u8 (Z.lor (Z.shiftl b0 7) b1) = b1 mod 128 + 128 * Z.b2z (Z.odd b0 || (128 <=? b1)).
Proof.
  intros b0 b1 H0 H1. apply Z.eqb_eq.
  exact (sweep88 (fun b0 b1 => u8 (Z.lor (Z.shiftl b0 7) b1) =? b1 mod 128 + 128 * Z.b2z (Z.odd b0 || (128 <=? b1)))
           ltac:(vm_compute; reflexivity) b0 b1 H0 H1).
Qed.

Lemma exists_last_dec : forall l : list Z, l = [] \/ exists a x, l = a ++ [x].
Proof. intros l. destruct l as [|y l]; [left; reflexivity|right]. destruct (exists_last (l := y :: l)) as (a & x & ->); [discriminate|eauto]. Qed.

Section Execute.
  Context {I : Type} (E : Env I) (m : I -> Z -> Z) (able : access -> Prop) (Hk : keeps_cvs able E m).
  Implicit Types s : st I.
  Let Hm : cv_memory E m := proj1 Hk.
  Notation Sim := (Sim m).
  Notation simulates := (simulates m able).

  Lemma sim_housekeeping : simulates (housekeeping E) idle.
  Proof.
    assert (Hs : simulates (logonStore E) idle).
    { intros s v u s' es HS H _. unfold logonStore in H. rewrite bind_get in H.
      assert (logon_store (r_logon (rxs s)) = false) as El by (destruct HS as (_ & _ & HS & _); unfold regs in HS; congruence).
      rewrite El in H. cbn [negb] in H. exact (done_idle m _ _ _ _ _ HS H). }
    unfold housekeeping. apply sim_bind_idle; [|intros _].
    { apply sim_idle; [keeps_tac|apply quiet_adr|emits_tac; reflexivity]. }
    apply sim_bind_idle; [exact Hs|intros _].
    apply sim_bind_idle; [|intros _].
    { apply sim_idle; [keeps_tac|apply quiet_qos|emits_tac; reflexivity]. }
    apply sim_idle; [keeps_tac|apply (quiet_tp _ _ Hm)|emits_tac; reflexivity].
  Qed.

  Lemma turned_same : forall v s n d, Sim v s -> turned (r_addrs (rxs s)) n d = turned (addresses (v_cvs v)) n d.
  Proof. intros v s n d (_ & (H1 & H2 & _) & _). unfold turned, addresses. cbn [primary consist]. rewrite H1, H2. reflexivity. Qed.
  Lemma drive_same : forall v s n d k x, Sim v s -> drive (r_addrs (rxs s)) n d k x = drive (addresses (v_cvs v)) n d k x.
  Proof. intros v s n d k x HS. unfold drive. rewrite (turned_same v s n d HS). reflexivity. Qed.
  Lemma speed126_same : forall v s n b, Sim v s -> speed126_calls (r_addrs (rxs s)) n b = speed126_calls (addresses (v_cvs v)) n b.
  Proof. intros v s n b HS. unfold speed126_calls. rewrite !(drive_same v s n _ _ _ HS). reflexivity. Qed.
  Lemma speed28_same : forall v s f n b, Sim v s -> speed28_calls (r_addrs (rxs s)) f n b = speed28_calls (addresses (v_cvs v)) f n b.
  Proof. intros v s f n b HS. unfold speed28_calls. rewrite !(drive_same v s n _ _ _ HS). reflexivity. Qed.
  Lemma f0_same : forall v s, Sim v s -> f0_exception (r_conf (rxs s)) = f0_exception (switches (v_cvs v)).
  Proof. intros v s (_ & (_ & _ & H) & _). apply (f_equal f0_exception) in H. exact H. Qed.

  (** The number under which a packet is obeyed *)
  Lemma has_number_spec : forall a n, has_number a n = true <-> loco_number a n.
  Proof.
    intros a n. unfold has_number, loco_number. destruct (atyp a); rewrite ?Z.eqb_eq; intuition (try discriminate).
  Qed.
  Lemma recipient_spec : forall v s p n, Sim v s ->
    recipient (v_cvs v) p = Some n <-> for_locos p /\ acts_as (r_addrs (rxs s)) p n.
  Proof.
    intros v s p n (_ & (H1 & H2 & _) & _ & HL). unfold recipient, for_locos.
    assert (K : (if (aval (address_of p) =? 0) || has_number (own_address (v_cvs v)) (aval (address_of p))
                      || has_number (consist_address (v_cvs v)) (aval (address_of p))
                 then Some (aval (address_of p)) else None) = Some n <-> acts_as (r_addrs (rxs s)) p n).
    { destruct (Z.eqb_spec (aval (address_of p)) 0) as [Z0|N0]; cbn [orb].
      - split.
        + intros X. assert (n = 0) as -> by congruence. apply to_all. exact Z0.
        + intros X. inversion X; congruence.
      - rewrite <- H1, <- H2.
        destruct (has_number (primary (r_addrs (rxs s))) (aval (address_of p)) || has_number (consist (r_addrs (rxs s))) (aval (address_of p))) eqn:Eh.
        + split; [|intros X; inversion X; subst; try congruence].
          * intros X. assert (aval (address_of p) = n) as En by congruence.
            apply to_own; [congruence|exact En|exact HL|].
            rewrite <- En. apply orb_true_iff in Eh. rewrite !has_number_spec in Eh. exact Eh.
          * exfalso. match goal with H : loco_number (logon _) _ |- _ => destruct H as [_ H]; congruence end.
        + split; [discriminate|]. intros X. exfalso. inversion X; subst; try congruence.
          * apply orb_false_iff in Eh. rewrite <- !not_true_iff_false, !has_number_spec in Eh. tauto.
          * match goal with H : loco_number (logon _) _ |- _ => destruct H as [_ H]; congruence end. }
    destruct (atyp (address_of p)); rewrite ?K; cbn [In]; intuition (try discriminate).
  Qed.

  Definition tells (e : event) : Prop := seen_of e = [Told e].
  Lemma told_all : forall es, Forall tells es -> seen_in es = map Told es.
  Proof.
    induction es as [|e es IH]; intros H; [reflexivity|]. inversion H as [|? ? H1 H2]; subst.
    change (seen_in (e :: es)) with (seen_of e ++ seen_in es). rewrite H1, (IH H2). reflexivity.
  Qed.
  Lemma tells_drive : forall ad n d k x, Forall tells (drive ad n d k x).
  Proof. intros. repeat apply Forall_cons; try reflexivity. apply Forall_nil. Qed.
  Lemma tells_126 : forall ad n b, Forall tells (speed126_calls ad n b).
  Proof.
    intros. unfold speed126_calls. destruct (b mod 128 =? 1); [apply Forall_cons; [reflexivity|apply Forall_nil]|apply tells_drive].
  Qed.
  Lemma tells_28 : forall ad f n b, Forall tells (speed28_calls ad f n b).
  Proof.
    intros. unfold speed28_calls. destruct (b mod 16 =? 1); [apply Forall_cons; [reflexivity|apply Forall_nil]|].
    destruct f; [apply Forall_cons; [reflexivity|]|]; apply tells_drive.
  Qed.
  Lemma tells_combined : forall n fs k, Forall tells (combined true n k fs).
  Proof.
    intros n. induction fs as [|f fs IH]; intros k; [apply Forall_nil|]. cbn [combined]. apply Forall_cons; [|apply IH].
    destruct (true && (k =? 24)); reflexivity.
  Qed.

  Lemma said : forall v s q calls b s' es, Sim v s -> reacts E s q true calls -> execute E s = Ok (b, s', es) -> es = calls.
  Proof.
    intros v s q calls b s' es (_ & _ & HS & _) (t & e1 & H & (_ & He) & _) K.
    assert (logon_store (r_logon (rxs s)) = false) as El by (unfold regs in HS; congruence).
    rewrite (He El) in H. cbn [List.app] in H. congruence.
  Qed.

  Lemma Sim_pop : forall v s q, Sim v s -> Sim v (pop q s).
  Proof. intros v s q. apply Sim_kept; reflexivity. Qed.

  Lemma sim_quiet : forall A (f : M (I := I) A) v s u s' es, keeps regs f -> quiet m f -> Sim v s -> f s = Ok (u, s', es) -> Sim v s'.
  Proof.
    intros A f v s u s' es H1 H2 HS H. destruct (H2 _ _ _ _ H) as (Q1 & Q2 & _).
    exact (Sim_kept m v s s' (H1 _ _ _ _ H) Q1 Q2 HS).
  Qed.
  Lemma sim_silent : forall A (f : M (I := I) A) v s u s' es, keeps regs f -> quiet m f -> emits plain f -> Sim v s ->
    f s = Ok (u, s', es) -> Sim v s' /\ seen_in es = [].
  Proof.
    intros A f v s u s' es H1 H2 H3 HS H. split; [exact (sim_quiet _ f v s u s' es H1 H2 HS H)|].
    apply plain_seen. exact (H3 _ _ _ _ H).
  Qed.

  (** The instruction *)
  Lemma dispatch_class : forall n b0 t s, byte b0 -> dispatch E n (b0 :: t) s =
    match nibble_class (b0 / 16) with
    | IDecoderControl =>
        if n =? 0 then if b0 =? 0 then serviceMode E true else ret tt else ret tt
    | IConsistControl => consistControl E (b0 :: t)
    | IAdvancedOperations => advancedOperations E n (b0 :: t)
    | ISpeedDirection => speedAndDirection E n (b0 :: t)
    | IFunctionGroup => functionGroup E n (b0 :: t)
    | IFeatureExpansion => featureExpansion E n (b0 :: t)
    | ICvLong => cvLong E n (b0 :: t)
    | ICvShort => cvShort E n (b0 :: t)
    | _ => ret tt
    end s.
  Proof.
    intros n b0 t s H0. unfold dispatch. rewrite (decode_instruction_spec b0 t H0), bind_lift.
    destruct (nibble_class (b0 / 16)); try reflexivity.
    cbn [at_ nth_error]. destruct (n =? 0); [|reflexivity]. rewrite bind_ret. reflexivity.
  Qed.

  Lemma sim_operations : forall v s p q b s' es, Forall byte p -> (3 <= length p)%nat -> ready s p q -> Sim v s -> v_service v = false ->
    execute E s = Ok (b, s', es) ->
    Forall (allowed able) (snd (operations (e_east_west E) p v)) ->
    Sim (fst (operations (e_east_west E) p v)) s' /\ seen_in es = snd (operations (e_east_west E) p v).
  Proof.
    intros v s p q b s' es Hb Hl Hr HS Hsv H Hra.
    assert (in_service s = false) as Hmode by (unfold in_service; rewrite (sim_mode m v s HS); exact Hsv).
    destruct (execute_housekeeping E s p q Hr) as (s1 & e1 & Hh & Hhk & Hp & Hst & He).
    destruct (sim_housekeeping s v tt s1 e1 HS Hh (Forall_nil _)) as [HS1 _]. cbn [fst idle] in HS1.
    assert (e1 = []) as ->.
    { apply (proj2 Hst). destruct HS as (_ & _ & HS & _). unfold regs in HS. congruence. }
    assert (r_addrs (rxs s1) = r_addrs (rxs s)) as Had by (unfold hk in Hhk; congruence).
    assert (r_deque (rxs s1) = p :: q) as Hd by (unfold hk in Hhk; destruct Hr; congruence).
    assert (in_service s1 = false) as Hm1 by (unfold in_service in *; unfold hk in Hhk; congruence).
    pose proof H as H0. rewrite He in H.
    destruct (command_operations E s1 p q Hm1 Hd Hb Hl) as [(Hf & n & Ha & Hc)|(Hn & Hc)].
    2: { rewrite Hc in H. assert (recipient (v_cvs v) p = None) as Hnone.
         { destruct (recipient (v_cvs v) p) as [n|] eqn:Er; [|reflexivity].
           apply (recipient_spec v s1 p n HS1) in Er. elim Hn. split; [apply Er|]. exists n. apply Er. }
         unfold operations. rewrite Hnone. cbn [fst snd].
         assert (s' = pop q s1) as -> by congruence. cbn [List.app] in H. assert (es = []) as -> by congruence.
         split; [apply Sim_pop; exact HS1|reflexivity]. }
    assert (recipient (v_cvs v) p = Some n) as Hrec by (apply (recipient_spec v s1 p n HS1); split; [exact Hf|exact Ha]).
    rewrite Had in Ha.
    destruct (executeCommand E s1) as [[[b2 s2] e2]|r] eqn:Ec; [|discriminate].
    assert (s' = pop q s2) as -> by congruence. assert (es = e2) as -> by (cbn [List.app] in H; congruence). clear H He.
    symmetry in Hc. apply bind_inv in Hc. destruct Hc as ([] & s3 & e3 & e4 & Hdis & Hret & ->).
    unfold ret in Hret. assert (s2 = s3) as -> by congruence. assert (e4 = []) as -> by congruence. rewrite app_nil_r in *. clear Hret Ec.
    assert (KS : forall w, Sim w s3 -> Sim w (pop q s3)) by (intros w; apply Sim_pop).
    unfold operations in *. rewrite Hrec in *.
    pose proof (body_bytes p Hb) as Hbb. pose proof (body_nonempty p Hl) as Hbn.
    destruct (body_of p) as [|b0 t] eqn:Ebody; [congruence|]. clear Hbn.
    inversion Hbb as [|? ? Hb0 Hbt]; subst. rewrite (dispatch_class n b0 t s1 Hb0) in Hdis. unfold byte in Hb0.
    assert (Hb0' : byte b0) by exact Hb0.
    destruct (Z.ltb_spec b0 0x10).
    { rewrite (class_of b0 0 1 IDecoderControl Hb0' eq_refl ltac:(lia)) in Hdis.
      destruct (n =? 0); cbn [andb]; [|destruct (done_idle m _ _ _ _ _ HS1 Hdis); auto].
      destruct (b0 =? 0); [|destruct (done_idle m _ _ _ _ _ HS1 Hdis); auto].
      cbn [fst snd]. unfold serviceMode, call, modify, bind in Hdis. cbn [rxs app pending List.app] in Hdis.
      assert (s3 = Mk_st (set_service_mode true (rxs s1)) (e_hook E (app s1) (EServiceModeHook true)) (pending s1)) as -> by congruence.
      assert (e3 = [EServiceModeHook true]) as -> by congruence. split; [|reflexivity]. apply KS.
      destruct HS1 as (A & B & C & D). split; [intros a; cbn [app]; rewrite (mem_hook E m Hm); apply A|].
      split; [exact B|]. split; [|exact D]. unfold regs in *. cbn [with_service v_service v_page v_last v_times rxs].
      destruct (rxs s1) as [? ? ? ? ? ? ? [] ?]. cbn in *. congruence. }
    destruct (Z.ltb_spec b0 0x20).
    { rewrite (class_of b0 1 2 IConsistControl Hb0' eq_refl ltac:(lia)) in Hdis.
      unfold consistControl in Hdis. cbn [at_ nth_error] in Hdis. rewrite bind_ret in Hdis.
      destruct t as [|b1 t]; [discriminate Hdis|]. inversion Hbt as [|? ? Hb1 _]; subst.
      cbn [at_ nth_error] in Hdis. rewrite bind_ret in Hdis. cbn [hd] in *. change (19 - 1) with 18 in *.
      pose proof (consist_byte b0 b1 Hb0' Hb1) as Eu. rewrite Eu in Hdis.
      assert (Hby : byte (b1 mod 128 + 128 * Z.b2z (Z.odd b0 || (128 <=? b1)))) by (rewrite <- Eu; apply u8_byte).
      destruct (sim_cvWrite E m able Hk 18 _ Hby _ _ _ _ _ HS1 Hdis Hra). auto. }
    destruct (Z.ltb_spec b0 0xE0).
    { cbn [fst snd]. cbn [fst snd] in Hra. unfold driving.
      destruct (Z.eqb_spec b0 0x3F) as [->|N3F].
      { change (nibble_class (63 / 16)) with IAdvancedOperations in Hdis. destruct t as [|b1 t]; [discriminate Hdis|].
        split; [apply KS; refine (sim_quiet _ _ _ _ _ _ _ _ _ HS1 Hdis); [keeps_tac|quiet_tac Hm]|].
        rewrite (said v s q _ _ _ _ HS (speed126_reacts E s p q n b1 t Hr Hmode Hb Hl Hf Ha Ebody) H0).
        rewrite (speed126_same v s n b1 HS). apply told_all, tells_126. }
      destruct (Z.eqb_spec b0 0x3C) as [->|N3C].
      { change (nibble_class (60 / 16)) with IAdvancedOperations in Hdis. destruct t as [|b1 t]; [discriminate Hdis|].
        split; [apply KS; refine (sim_quiet _ _ _ _ _ _ _ _ _ HS1 Hdis); [keeps_tac|quiet_tac Hm]|].
        inversion Hbt as [|? ? Hb1 _]; subst. cbn [hd tl].
        destruct (exists_last_dec t) as [->|(fs & c & ->)].
        - cbn [removelast firstn combined List.app].
          unfold advancedOperations in Hdis. cbn [at_ nth_error length] in Hdis. rewrite bind_ret in Hdis.
          cbn [Z.eqb Pos.eqb Nat.ltb Nat.leb when] in Hdis. rewrite !bind_ret in Hdis.
          pose proof (says_speed126 E (r_addrs (rxs s1)) n 60 b1 [] s1 Hb1 eq_refl) as Hsay. unfold says in Hsay. rewrite Hsay in Hdis.
          assert (e3 = speed126_calls (r_addrs (rxs s1)) n b1) as -> by congruence.
          rewrite (speed126_same v s1 n b1 HS1). apply told_all, tells_126.
        - rewrite removelast_last.
          rewrite (said v s q _ _ _ _ HS (combined_reacts E s p q n b1 fs c Hr Hmode Hb Hl Hf Ha Ebody) H0).
          rewrite (speed126_same v s n b1 HS). apply told_all. apply Forall_app. split; [apply tells_combined|apply tells_126]. }
      destruct (Z.eqb_spec b0 0x3E) as [->|N3E].
      { change (nibble_class (62 / 16)) with IAdvancedOperations in Hdis. destruct t as [|b1 t]; [discriminate Hdis|].
        split; [apply KS; refine (sim_quiet _ _ _ _ _ _ _ _ _ HS1 Hdis); [keeps_tac|quiet_tac Hm]|].
        unfold advancedOperations in Hdis. cbn [at_ nth_error] in Hdis. rewrite bind_ret in Hdis.
        cbn [Z.eqb Pos.eqb] in Hdis. rewrite bind_ret, bind_modify in Hdis. unfold when in Hdis. cbn [hd].
        rewrite testbit_bit in Hdis by lia. destruct (e_east_west E).
        - destruct (bit_of b1 6); unfold call in Hdis;
            [assert (e3 = [EEastWest n (Some true)]) as -> by congruence|assert (e3 = [EEastWest n (Some false)]) as -> by congruence]; reflexivity.
        - unfold ret in Hdis. assert (e3 = []) as -> by congruence. reflexivity. }
      destruct (Z.ltb_spec b0 0x40).
      { rewrite (class_of b0 2 4 IAdvancedOperations Hb0' eq_refl ltac:(lia)) in Hdis.
        unfold advancedOperations in Hdis. cbn [at_ nth_error] in Hdis. rewrite bind_ret in Hdis.
        rewrite (proj2 (Z.eqb_neq _ _) N3F), (proj2 (Z.eqb_neq _ _) N3C), (proj2 (Z.eqb_neq _ _) N3E) in Hdis.
        destruct (done_idle m _ _ _ _ _ HS1 Hdis); auto. }
      destruct (Z.ltb_spec b0 0x80).
      { rewrite (class_of b0 4 8 ISpeedDirection Hb0' eq_refl ltac:(lia)) in Hdis.
        split; [apply KS; refine (sim_quiet _ _ _ _ _ _ _ _ _ HS1 Hdis); [keeps_tac|quiet_tac Hm]|].
        rewrite (said v s q _ _ _ _ HS (speed28_reacts E s p q n b0 t Hr Hmode Hb Hl Hf Ha Ebody ltac:(lia)) H0).
        rewrite (speed28_same v s _ n b0 HS), (f0_same v s HS). apply told_all, tells_28. }
      destruct (Z.ltb_spec b0 0xC0).
      { rewrite (class_of b0 8 12 IFunctionGroup Hb0' eq_refl ltac:(lia)) in Hdis.
        split; [apply KS; refine (sim_quiet _ _ _ _ _ _ _ _ _ HS1 Hdis); [keeps_tac|quiet_tac Hm]|].
        rewrite (said v s q _ _ _ _ HS (group_reacts E s p q n b0 t Hr Hmode Hb Hl Hf Ha Ebody ltac:(lia)) H0).
        rewrite (f0_same v s HS). apply told_all, Forall_cons; [|apply Forall_nil].
        unfold function_group_call. destruct (b0 <? 160); [destruct (f0_exception (switches (v_cvs v)))|destruct (b0 <? 176)]; reflexivity. }
      rewrite (class_of b0 12 14 IFeatureExpansion Hb0' eq_refl ltac:(lia)) in Hdis.
      split; [apply KS; refine (sim_quiet _ _ _ _ _ _ _ _ _ HS1 Hdis); [keeps_tac|quiet_tac Hm]|].
      destruct (Z.eqb_spec b0 0xDE) as [->|NDE].
      { destruct t as [|b1 t]; [discriminate Hdis|].
        rewrite (said v s q _ _ _ _ HS (expansion_reacts E s p q n 222 b1 t Hr Hmode Hb Hl Hf Ha Ebody ltac:(auto)) H0). reflexivity. }
      destruct (Z.eqb_spec b0 0xDF) as [->|NDF].
      { destruct t as [|b1 t]; [discriminate Hdis|].
        rewrite (said v s q _ _ _ _ HS (expansion_reacts E s p q n 223 b1 t Hr Hmode Hb Hl Hf Ha Ebody ltac:(auto)) H0). reflexivity. }
      unfold featureExpansion in Hdis. cbn [at_ nth_error] in Hdis. rewrite bind_ret in Hdis.
      rewrite (proj2 (Z.eqb_neq _ _) NDE), (proj2 (Z.eqb_neq _ _) NDF) in Hdis. apply plain_seen.
      match type of Hdis with ?f s1 = _ => assert (emits plain f) as Hpl; [emits_tac; reflexivity|exact (Hpl _ _ _ _ Hdis)] end. }
    destruct (negb (n =? 0) && (n =? aval (consist_address (v_cvs v)))) eqn:Econ.
    { cbn [fst snd]. pose proof (sim_consist m v s1 HS1) as Hco.
      destruct (Z.ltb_spec b0 0xF0).
      - rewrite (class_of b0 14 15 ICvLong Hb0' eq_refl ltac:(lia)) in Hdis. unfold cvLong in Hdis.
        rewrite bind_get, Hco, Econ in Hdis. destruct (done_idle m _ _ _ _ _ HS1 Hdis); auto.
      - rewrite (class_of b0 15 16 ICvShort Hb0' eq_refl ltac:(lia)) in Hdis. unfold cvShort in Hdis.
        rewrite bind_get, Hco, Econ in Hdis. destruct (done_idle m _ _ _ _ _ HS1 Hdis); auto. }
    cbv zeta in Hra |- *.
    destruct (Z.ltb_spec b0 0xF0).
    - rewrite (class_of b0 14 15 ICvLong Hb0' eq_refl ltac:(lia)) in Hdis.
      pose proof (sim_cvLong E m able Hk n b0 t p q s1 v tt s3 e3 Hd Hbb Econ HS1 Hdis) as K. cbv zeta in K.
      rewrite Hsv in K. cbn [andb] in K. destruct (K Hra). auto.
    - rewrite (class_of b0 15 16 ICvShort Hb0' eq_refl ltac:(lia)) in Hdis.
      destruct (sim_cvShort E m able Hk n b0 t p q s1 v tt s3 e3 Hd Hbb Econ HS1 Hdis Hra). auto.
  Qed.
End Execute.
