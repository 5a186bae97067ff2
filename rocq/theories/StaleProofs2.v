(** Every function of execute() under interrupts, with the CV answers waiting. *)
From Verif Require Import Prelude Address Instruction SpecCodec Datagram RxState Rx RxLogic SpecRx SpecConf SpecBidi RxBitProofs RxBitProofs4 ExecProofs
  LogonProofs4 BidiProofs BidiProofs3 Preempt SpecPreempt PreemptProofs PreemptProofs2 PreemptProofs3 PreemptProofs4 SpecOffer OfferProofs2 StaleProofs.

Ltac leafy_leaf :=
  lazymatch goal with
  | |- leafy _ _ (modify (set_pom_deque [])) => split; [blind_leaf; try reflexivity|apply dims_clear]
  | |- leafy _ _ _ => split; [blind_leaf; try reflexivity|apply dims_keeps; leaf_keeps]
  end.

Section Follow.
  Context {I : Type} (E : Env I).
  Hypothesis deaf : forall i d, e_hook E i (ETransmitBiDi d) = i.
  Variable p : list Z.
  Implicit Types s : st I.
  Notation follows := (follows E p).
  Notation leafy := (@leafy I p).

  Lemma follows_pom : forall v, follows (pomP v).
  Proof.
    intros v. unfold pomP. apply (follows_bind E); [apply (follows_acts E deaf); acts_tac; leafy_leaf|intros []; cbn [negb]].
    2: apply (follows_Done E deaf).
    destruct (rbind (make_datagram_id B12 0 v) encode_datagram) as [d|u].
    2: { cbn [local]. intros w l s s' c sn sv s1' es' Hw Hn HR Ha Hf H. exfalso. unfold wr, act in H. cbn [pbind] in H.
         apply preempted_inv in H. destruct H as (s2 & e1 & b & s3 & e2 & a0 & sn1 & sv1 & e3 & _ & _ & H & _).
         apply preempted_inv in H. destruct H as (s4 & e4 & b1 & s5 & e5 & a1 & sn2 & sv2 & e6 & _ & H & _). discriminate. }
    cbn [local pbind]. intros w l s s' c sn sv s1' es' Hw Hn HR Ha Hf H.
    change (pbind (Done d) ?f) with (f d) in H.
    assert (F : follows (wr (set_pom_deque []))) by (apply (follows_acts E deaf); acts_tac; leafy_leaf).
    apply preempted_pbind in H.
    destruct H as (a & sn1 & sv1 & s1 & e1 & c' & sn2 & sv2 & e2 & H1 & H2 & Ho & ->).
    injection Ho as -> -> ->. apply no_logon_app in Hn. destruct Hn as [Hn1 Hn2].
    destruct (F _ _ _ _ _ _ _ _ _ Hw Hn1 HR Ha Hf H1) as (HR1 & s2 & es1 & F1 & Ha1 & Hf1 & He1 & Hm1).
    assert (H0 : cv_waiting s2 = []) by (cbn in F1; inversion F1; reflexivity).
    destruct (follows_push E deaf p d _ _ _ _ _ _ _ _ _ (handlers_skipn _ _ Hw) Hn2 HR1 Ha1 H0 Hf1 H2) as (HR2 & s3 & es2 & F2 & Ha2 & Hf2 & He2 & Hm2).
    split; [rewrite listen_all_app; exact HR2|]. exists s3, (es1 ++ es2).
    split; [rewrite flat_pbind; unfold bind at 1; rewrite F1; cbn [pbind]; rewrite F2; reflexivity|]. split; [exact Ha2|]. split; [exact Hf2|]. split.
    - rewrite commands_app, He1, He2. reflexivity.
    - rewrite (meanwhile_pbind E _ _ _ _ _ _ _ _ _ _ _ H1), (stages_pbind _ _ _ _ _ _ _ _ F1). apply Forall_app. split.
      + eapply Forall_impl; [|exact Hm1]. intros x (t & Ht & Hx). exists t. split; [apply in_or_app; left; exact Ht|exact Hx].
      + eapply Forall_impl; [|exact Hm2]. intros x (t & Ht & Hx). exists t. split; [apply in_or_app; right; exact Ht|exact Hx].
  Qed.

  (** ** Parts that work on what the handlers change *)
  Definition mutter (B : Type) (m : M (I := I) B) : Prop := mute' B m /\ keeps pom_of m.
  Lemma mutter_like : forall A (P : prog A), acts mutter P ->
    forall w l s s' a sn sv s1' es',
    Forall (Forall handler) w -> no_logon sv l -> Rl l s' ->
    mask (rxs s') = mask (rxs s) -> app s' = app s -> pending s' = pending s -> faded s s' ->
    preempted E P w s' = Ok ((a, sn, sv), s1', es') ->
    faded s s1' /\ Forall (like s) (meanwhile E P w s').
  Proof.
    intros A P. induction P as [a|B m k IH]; intros HP w l s s' a' sn sv s1' es' Hw Hn HR A1 A2 A3 Hf H.
    - inversion H; subst. split; [exact Hf|constructor].
    - destruct HP as [[[Hk Hm] Hq] HP]. apply preempted_inv in H.
      destruct H as (s2 & e1 & b & s3 & e2 & a0 & sn1 & sv1 & e3 & H1 & H2 & H3 & Ho & ->).
      injection Ho as -> -> ->. apply no_logon_app in Hn. destruct Hn as [Hn1 Hn2].
      pose proof (handlers_hd w Hw) as Hh.
      (* [near] without the queue of tip-off search *)
      assert (N : near s' s') by (repeat split; auto).
      destruct (handlers_near E deaf _ _ _ _ _ _ Hh Hn1 HR N H1) as ((B1 & B2 & B3 & _) & _).
      pose proof (handlers_like E deaf _ _ _ _ _ _ Hh Hn1 HR N (faded_refl s') H1) as HL.
      assert (Hf2 : faded s s2) by (apply faded_trans with s'; [exact Hf|exact (pom_handlers E _ _ _ _ Hh H1)]).
      pose proof (run_refines E _ _ _ _ _ HR H1) as HR2.
      pose proof (Rl_core _ _ _ (Hk _ _ _ _ H2) HR2) as HR3.
      destruct (Hm _ _ _ _ H2) as (C1 & C2 & C3 & ->).
      assert (Hf3 : faded s s3) by (apply faded_trans with s2; [exact Hf2|apply faded_keeps; exact (Hq _ _ _ _ H2)]).
      destruct (IH b (HP b) (tl w) _ s s3 _ _ _ _ _ (handlers_tl w Hw) Hn2 HR3 ltac:(congruence) ltac:(congruence) ltac:(congruence) Hf3 H3) as [Hf4 Hl4].
      split; [exact Hf4|]. cbn [meanwhile]. rewrite H1, H2. apply Forall_app. split; [|exact Hl4].
      eapply Forall_impl; [|exact HL]. intros x [X1 X2]. split; [congruence|apply faded_trans with s'; assumption].
  Qed.
  Lemma first_stage : forall A (P : prog (I := I) A) w s' s x, In x (meanwhile E P w s') -> In s (stages P s).
  Proof. intros A [a|B m k] w s' s x H; [destruct H|]. left. reflexivity. Qed.

  Lemma pom_flat : forall A (P : prog A), acts mutter P -> forall s a s1 es, flat P s = Ok (a, s1, es) -> pom_of (rxs s1) = pom_of (rxs s).
  Proof.
    intros A P. induction P as [a|B m k IH]; intros HP s a' s1 es H; [inversion H; reflexivity|].
    destruct HP as [[_ Hm] HP]. cbn [flat] in H. apply bind_inv in H. destruct H as (b & s2 & e1 & e2 & H1 & H2 & _).
    rewrite (IH b (HP b) _ _ _ _ H2). exact (Hm _ _ _ _ H1).
  Qed.
  Lemma follows_steady : forall A (P : prog A), steady E p P -> acts mutter P -> follows P.
  Proof.
    intros A P HS HP w l s s' a sn sv s1' es' Hw Hn HR Ha Hf H.
    destruct (HS _ _ _ _ _ _ _ _ _ Hw Hn HR Ha H) as (HR1 & s1 & es & F & Ha1 & He).
    split; [exact HR1|]. exists s1, es. split; [exact F|]. split; [exact Ha1|].
    pose proof Ha as (A1 & A2 & A3 & A4 & _).
    destruct (mutter_like _ _ HP _ _ s _ _ _ _ _ _ Hw Hn HR A1 A2 A3 Hf H) as [Hf1 Hl]. split; [|split; [exact He|]].
    - destruct Hf1 as [n Hn1]. exists n. rewrite Hn1. unfold cv_waiting. f_equal. symmetry. exact (pom_flat _ _ HP _ _ _ _ F).
    - rewrite Forall_forall in *. intros x Hx. exists s. split; [exact (first_stage _ _ _ _ _ _ Hx)|apply Hl; exact Hx].
  Qed.
  Ltac mutter_leaf :=
    lazymatch goal with
    | |- mutter _ (gets _) => split; [split; [intros ? ? ? ? H; inversion H; reflexivity|intros ? ? ? ? H; inversion H; subst; repeat split]|leaf_keeps]
    | |- mutter _ (modify _) => split; [split; [apply keeps_modify; reflexivity|intros ? ? ? ? H; inversion H; subst; repeat split]|leaf_keeps]
    | |- mutter _ (fail _) => split; [split; [apply keeps_fail|intros ? ? ? ? H; discriminate]|leaf_keeps]
    end.
  Lemma follows_adr : follows adrP.
  Proof. apply follows_steady; [apply steady_adr; exact deaf|acts_tac; mutter_leaf]. Qed.
  Lemma follows_qos : follows updateQosP.
  Proof. apply follows_steady; [apply steady_qos; exact deaf|acts_tac; mutter_leaf]. Qed.
  Lemma follows_tipOff : follows (tipOffSearchP E).
  Proof.
    unfold tipOffSearchP. apply (follows_bind E); [apply (follows_acts E deaf); acts_tac; leafy_leaf|]. intros [].
    { cbn [pbind]. apply (follows_Done E deaf). }
    apply (follows_steady _ searchP); [apply steady_search; exact deaf|acts_tac; mutter_leaf].
  Qed.

  Ltac follow1 :=
    lazymatch goal with
    | |- follows (pomP _) => apply follows_pom
    | |- follows (tipOffSearchP _) => apply follows_tipOff
    | |- follows (pbind _ _) => apply (follows_bind E); [|intro]
    | |- follows (Done _) => apply (follows_Done E deaf)
    | |- follows (if ?b then _ else _) => destruct b
    | |- follows (match ?x with _ => _ end) => destruct x
    | |- follows (let _ := _ in _) => cbv zeta
    | |- follows (act _) => apply (follows_acts E deaf), acts_act; leafy_leaf
    | |- follows ?P => let h := head_of P in unfold h
    end.
  Ltac leaves := apply (follows_acts E deaf); acts_tac; leafy_leaf.
  Lemma follows_init : follows (initP E). Proof. leaves. Qed.
  Lemma follows_reinit : forall a, follows (reinitP E a).
  Proof. intros a. unfold reinitP, whenP. destruct (existsb _ _); [apply follows_init|apply (follows_Done E deaf)]. Qed.
  Lemma follows_cb_byte : forall b v, follows (cb_byteP E b v). Proof. intros. repeat follow1. Qed.
  Lemma follows_cb_bit : forall b v, follows (cb_bitP E b v). Proof. intros. repeat follow1. Qed.
  Lemma follows_cb : forall c v, follows (run_cbP E c v).
  Proof. intros [b|b] v; [apply follows_cb_byte|apply follows_cb_bit]. Qed.
  Ltac follow2 :=
    lazymatch goal with
    | |- follows (reinitP _ _) => apply follows_reinit
    | |- follows (cb_byteP _ _ _) => apply follows_cb_byte
    | |- follows (cb_bitP _ _ _) => apply follows_cb_bit
    | |- follows (run_cbP _ _ _) => apply follows_cb
    | _ => follow1
    end.
  Lemma follows_cvWrite : forall a b, follows (cvWriteP E a b). Proof. intros. repeat follow2. Qed.
  Lemma follows_cvWriteBit : forall a b o, follows (cvWriteBitP E a b o). Proof. intros. repeat follow2. Qed.
  Lemma follows_cvVerify : forall a b, follows (cvVerifyP E a b). Proof. intros. repeat follow2. Qed.
  Lemma follows_cvVerifyBit : forall a b o, follows (cvVerifyBitP E a b o). Proof. intros. repeat follow2. Qed.
  Ltac follow3 :=
    lazymatch goal with
    | |- follows (cvWriteP _ _ _) => apply follows_cvWrite
    | |- follows (cvWriteBitP _ _ _ _) => apply follows_cvWriteBit
    | |- follows (cvVerifyP _ _ _) => apply follows_cvVerify
    | |- follows (cvVerifyBitP _ _ _ _) => apply follows_cvVerifyBit
    | _ => follow1
    end.
  Lemma follows_cvLong : forall a o, follows (cvLongP E a o). Proof. intros. repeat follow3. Qed.
  Lemma follows_cvShort : forall a o, follows (cvShortP E a o). Proof. intros. repeat follow3. Qed.
  Lemma follows_registerMode : forall o, follows (registerModeP E o). Proof. intros. repeat follow3. Qed.
  Lemma follows_consist : forall o, follows (consistControlP E o). Proof. intros. repeat follow3. Qed.
  Lemma follows_advanced : forall a o, follows (advancedOperationsP E a o). Proof. intros. leaves. Qed.
  Lemma follows_speed : forall a o, follows (speedAndDirectionP E a o). Proof. intros. leaves. Qed.
  Lemma follows_function : forall a o, follows (functionGroupP E a o). Proof. intros. leaves. Qed.
  Ltac follow4 :=
    lazymatch goal with
    | |- follows (cvLongP _ _ _) => apply follows_cvLong
    | |- follows (cvShortP _ _ _) => apply follows_cvShort
    | |- follows (registerModeP _ _) => apply follows_registerMode
    | |- follows (consistControlP _ _) => apply follows_consist
    | |- follows (advancedOperationsP _ _ _) => apply follows_advanced
    | |- follows (speedAndDirectionP _ _ _) => apply follows_speed
    | |- follows (functionGroupP _ _ _) => apply follows_function
    | _ => follow1
    end.
  Lemma follows_instruct : forall a o, follows (instructP E a o). Proof. intros. repeat follow4. Qed.
  Lemma follows_service : follows (executeServiceP E). Proof. repeat follow4. Qed.
  Lemma follows_operations : follows (executeOperationsP E).
  Proof.
    repeat lazymatch goal with |- follows (instructP _ _ _) => apply follows_instruct | _ => follow4 end.
  Qed.
  Lemma follows_store : follows (logonStoreP E). Proof. leaves. Qed.
  Lemma follows_times : follows (updateTimepointsP E). Proof. leaves. Qed.
  Lemma follows_handle : follows (handleP E).
  Proof.
    unfold handleP.
    apply (follows_bind E); [apply follows_adr|intros _].
    apply (follows_bind E); [apply follows_store|intros _].
    apply (follows_bind E); [apply follows_qos|intros _].
    apply (follows_bind E); [apply follows_times|intros _].
    apply (follows_bind E); [apply (follows_acts E deaf), acts_act; leafy_leaf|intros []].
    - apply follows_service.
    - apply follows_operations.
  Qed.
End Follow.
