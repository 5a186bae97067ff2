(** CV access by packets: service mode *)
From Verif Require Import Prelude Address Instruction Datagram ZBits SpecCodec RxState Rx CodecProofs CodecProofs2 RxLogic SpecRx RxBitProofs
  RxBitProofs3 RxBitProofs4 SpecExec ExecProofs SpecConf ConfProofs ConfProofs2 SpecCv CvProofs CvProofs2 CvProofs3 CvProofs4 CvProofs5.

Section Mode.
  Context {I : Type} (E : Env I).
  Implicit Types s : st I.

  Definition modef (r : rx) := service_mode (r_cv r).
  Definition hookless {A} (f : M (I := I) A) : Prop :=
    emits (fun e => match e with EServiceModeHook _ => False | _ => True end) f /\ keeps modef f.

  Lemma mode_calls_app : forall a b, mode_calls (a ++ b) = mode_calls a ++ mode_calls b.
  Proof. intros a b. unfold mode_calls. apply flat_map_app. Qed.
  Lemma hookless_nil : forall A (f : M (I := I) A) s a s' es, hookless f -> f s = Ok (a, s', es) ->
    in_service s' = in_service s /\ mode_calls es = [].
  Proof.
    intros A f s a s' es [Hf Hk] H. split; [exact (Hk _ _ _ _ H)|]. apply Hf in H. clear Hf Hk.
    induction H as [|e l He _ IH]; [reflexivity|]. unfold mode_calls. cbn [flat_map]. fold (mode_calls l).
    destruct e; try exact IH. contradiction.
  Qed.
  Lemma storing_mode : forall s es, storing s es -> mode_calls es = [].
  Proof.
    intros s es [H _]. induction H as [|e l He _ IH]; [reflexivity|]. unfold mode_calls. cbn [flat_map]. fold (mode_calls l).
    destruct e; try exact IH. contradiction.
  Qed.
  Ltac hl := split; [emits_tac; exact Logic.I|keeps_tac].

  Lemma hookless_cvLong : forall n bs, hookless (cvLong E n bs). Proof. intros. hl. Qed.
  Lemma hookless_cvShort : forall n bs, hookless (cvShort E n bs). Proof. intros. hl. Qed.
  Lemma hookless_register : forall bs, hookless (registerMode E bs). Proof. intros. hl. Qed.

  Lemma serviceMode_ok : forall v s, exists s', serviceMode E v s = Ok (tt, s', [EServiceModeHook v]) /\ in_service s' = v.
  Proof. intros v s. eexists. split; reflexivity. Qed.

  Lemma dispatch_mode : forall n b0 t s u s' es, byte b0 -> dispatch E n (b0 :: t) s = Ok (u, s', es) ->
    (n = 0 /\ b0 = 0 /\ in_service s' = true /\ mode_calls es = [true]) \/
    (~ (n = 0 /\ b0 = 0) /\ in_service s' = in_service s /\ mode_calls es = []).
  Proof.
    intros n b0 t s u s' es Hb H. unfold dispatch in H. rewrite decode_instruction_spec, bind_lift in H by exact Hb.
    assert (Hx : forall f : M (I := I) unit, hookless f -> b0 <> 0 -> f s = Ok (u, s', es) ->
       ~ (n = 0 /\ b0 = 0) /\ in_service s' = in_service s /\ mode_calls es = []).
    { intros f Hf Hne Hs. destruct (hookless_nil _ _ _ _ _ _ Hf Hs). tauto. }
    destruct (Z.eq_dec b0 0) as [->|Hne].
    - change (nibble_class (0 / 16)) with IDecoderControl in H. cbn iota beta in H.
      destruct (Z.eqb_spec n 0) as [->|Hn].
      + cbn [at_ nth_error] in H. rewrite bind_ret in H. cbn [Z.eqb] in H.
        destruct (serviceMode_ok true s) as (s2 & H1 & H2). rewrite H1 in H.
        left. assert (s' = s2) as -> by congruence. assert (es = [EServiceModeHook true]) as -> by congruence. auto.
      + right. unfold ret in H. assert (s' = s) as -> by congruence. assert (es = []) as -> by congruence. tauto.
    - right. destruct (nibble_class (b0 / 16)) eqn:Ec; cbn iota beta in H; try (apply (Hx _ ltac:(shelve) Hne H); fail).
      all: try match type of H with ?f ?x = _ => apply (Hx f); [hl|exact Hne|exact H] end.
      destruct (n =? 0); [|apply (Hx (ret tt)); [hl|exact Hne|exact H]].
      cbn [at_ nth_error] in H. rewrite bind_ret, (proj2 (Z.eqb_neq _ _) Hne) in H. apply (Hx (ret tt)); [hl|exact Hne|exact H].
  Qed.

  Lemma service_mode_exec : forall p q s u s' es, Forall byte p -> (3 <= length p)%nat -> r_deque (rxs s) = p :: q ->
    in_service s = true -> executeService E s = Ok (u, s', es) ->
    (hd 0 p <> 0 /\ ~ 0x70 <= hd 0 p < 0x80 /\ in_service s' = false /\ mode_calls es = [false]) \/
    ((hd 0 p = 0 \/ 0x70 <= hd 0 p < 0x80) /\ in_service s' = in_service s /\ mode_calls es = []).
  Proof.
    intros p q s u s' es Hb Hl Hd Hsv H. unfold executeService in H. rewrite bind_get, Hd, bind_ret in H.
    destruct p as [|p0 p]; [cbn in Hl; lia|]. inversion Hb as [|? ? Hb0 _]; subst. cbn [hd].
    cbn [at_ nth_error] in H. rewrite bind_ret in H.
    apply bind_inv in H. destruct H as (u1 & s3 & e3 & e4 & E1 & E2 & ->).
    unfold ret in E2. assert (s' = s3) as -> by congruence. assert (e4 = []) as -> by congruence. rewrite app_nil_r. clear E2.
    assert (Hx : forall f : M (I := I) unit, hookless f -> p0 = 0 \/ 0x70 <= p0 < 0x80 -> f s = Ok (u1, s3, e3) ->
       (p0 = 0 \/ 0x70 <= p0 < 0x80) /\ in_service s3 = in_service s /\ mode_calls e3 = []).
    { intros f Hf Hne Hs. destruct (hookless_nil _ _ _ _ _ _ Hf Hs). tauto. }
    rewrite land_F0 in E1 by exact Hb0. unfold byte in Hb0.
    destruct (Z.eqb_spec p0 0) as [->|Hne]; [right; apply (Hx (ret tt)); [hl|auto|exact E1]|].
    destruct (Z.eqb_spec (16 * (p0 / 16)) 0x70) as [H7|H7]; cbn [negb] in E1.
    - right. assert (Hr : p0 = 0 \/ 0x70 <= p0 < 0x80) by lia.
      destruct (length (p0 :: p) =? 3)%nat; [apply (Hx _ (hookless_register _) Hr E1)|].
      destruct (length (p0 :: p) =? 4)%nat; [apply (Hx _ (hookless_cvLong _ _) Hr E1)|].
      apply (Hx (ret tt)); [hl|exact Hr|exact E1].
    - left. destruct (serviceMode_ok false s) as (s2 & H1 & H2). rewrite H1 in E1.
      assert (s3 = s2) as -> by congruence. assert (e3 = [EServiceModeHook false]) as -> by congruence.
      split; [exact Hne|]. split; [lia|]. auto.
  Qed.

  Lemma hookless_dyn_all : forall ds, hookless (dyn_all ds).
  Proof.
    induction ds as [|d ds [H1 H2]]; [hl|]. split.
    - apply emits_bind; [emits_tac|intros _; exact H1].
    - apply keeps_bind; [keeps_tac|intros _; exact H2].
  Qed.
  Lemma hookless_datagram : forall ds, hookless (datagram ds).
  Proof.
    intros ds. unfold datagram. split.
    - apply emits_bind; [apply emits_get|intros r]. apply emits_bind; [emits_tac|intros _].
      apply emits_bind; [apply emits_get|intros r']. destruct (block_dyn (r_bidi r')); [apply emits_ret|apply hookless_dyn_all].
    - apply keeps_bind; [apply keeps_get|intros r]. apply keeps_bind; [keeps_tac|intros _].
      apply keeps_bind; [apply keeps_get|intros r']. destruct (block_dyn (r_bidi r')); [apply keeps_ret|apply hookless_dyn_all].
  Qed.

  Lemma step_hookless : forall s o b s' es, step E o s = Ok (b, s', es) -> o <> OExecute ->
    in_service s' = in_service s /\ mode_calls es = [].
  Proof.
    intros s o b s' es H Ho.
    assert (K : forall (f : M (I := I) unit), hookless f -> bind f (fun _ => ret false) s = Ok (b, s', es) ->
      in_service s' = in_service s /\ mode_calls es = []).
    { intros f [Hf1 Hf2] Hx. apply (hookless_nil bool (bind f (fun _ => ret false)) s b s'); [|exact Hx].
      split; [apply emits_bind; [exact Hf1|intros; apply emits_ret]|apply keeps_bind; [exact Hf2|intros; apply keeps_ret]]. }
    destruct o; cbn [step] in H; try contradiction.
    - apply (K (init E)); [hl|exact H].
    - apply (K enable); [hl|exact H].
    - apply (K disable); [hl|exact H].
    - apply (K (receive E time)); [hl|exact H].
    - apply (K _ (hookless_datagram ds) H).
    - apply (K (biDiChannel1 E)); [hl|exact H].
    - apply (K (biDiChannel2 E)); [hl|exact H].
    - destruct (nth_error (pending s) i) as [c|]; [|assert (es = []) as -> by congruence; split; [congruence|reflexivity]].
      apply (K (run_cb E c v)); [hl|exact H].
  Qed.

  Lemma ready_fun : forall s p q p' q', ready s p q -> ready s p' q' -> p' = p.
  Proof. intros s p q p' q' [_ H] [_ K]. congruence. Qed.

  Lemma mode_step : forall s o b s' es, reached E s -> step E o s = Ok (b, s', es) ->
    (o = OExecute /\ (exists p q, ready s p q /\ enters s p) /\ in_service s' = true /\ mode_calls es = [true]) \/
    (o = OExecute /\ (exists p q, ready s p q /\ leaves s p) /\ in_service s' = false /\ mode_calls es = [false]) \/
    (~ (o = OExecute /\ exists p q, ready s p q /\ (enters s p \/ leaves s p)) /\ in_service s' = in_service s /\ mode_calls es = []).
  Proof.
    intros s o b s' es Hre H.
    assert (Ho : o = OExecute \/ o <> OExecute) by (destruct o; auto; right; discriminate).
    destruct Ho as [->|Ho].
    2: { right. right. split; [tauto|]. exact (step_hookless _ _ _ _ _ H Ho). }
    cbn [step] in H.
    destruct (execute_cases E s b s' es Hre H) as [(-> & -> & -> & Hno)|(p & q & s1 & s2 & e1 & e2 & Hr & Hb & Hl & Hk & Hp & Hs & -> & -> & Hd1 & Hc & Hcase)].
    { right. right. split; [|auto]. intros (_ & p & q & Hr & _). exact (Hno _ _ Hr). }
    change (in_service (pop q s2)) with (in_service s2). rewrite mode_calls_app, (storing_mode _ _ Hs). cbn [List.app].
    assert (in_service s1 = in_service s) as Hsv1 by (unfold hk in Hk; unfold in_service; congruence).
    destruct Hcase as [(Hsv & u & Hx)|[(Hsv & Hf & _ & n & u & Ha & Hx)|(Hsv & Hno & -> & -> & _)]].
    - rewrite <- Hsv1. destruct (service_mode_exec p q s1 u s2 e2 Hb Hl Hd1 ltac:(congruence) Hx) as [(A1 & A2 & A3 & A4)|(A1 & A2 & A3)].
      + right. left. split; [reflexivity|]. split; [|auto]. exists p, q. split; [exact Hr|]. split; [congruence|auto].
      + right. right. split; [|auto]. intros (_ & p' & q' & Hr' & Hel). rewrite (ready_fun _ _ _ _ _ Hr Hr') in Hel.
        destruct Hel as [(X & _)|(X & Y & Z)]; [congruence|]. tauto.
    - pose proof (body_bytes p Hb) as Hbb. pose proof (body_nonempty p Hl) as Hne.
      destruct (body_of p) as [|b0 bt] eqn:Eb; [contradiction|]. inversion Hbb as [|? ? Hb0 _]; subst.
      destruct (dispatch_mode n b0 bt s1 u s2 e2 Hb0 Hx) as [(-> & -> & A3 & A4)|(A1 & A2 & A3)].
      + left. split; [reflexivity|]. split; [|auto]. exists p, q. split; [exact Hr|]. split; [exact Hsv|].
        split; [exact Hf|]. split; [exact Ha|]. rewrite Eb. reflexivity.
      + right. right. split; [|rewrite A2; auto]. intros (_ & p' & q' & Hr' & Hel). rewrite (ready_fun _ _ _ _ _ Hr Hr') in Hel.
        destruct Hel as [(X & Y & Z & W)|(X & _)]; [|congruence]. rewrite Eb in W. cbn [hd] in W.
        apply A1. split; [exact (acts_as_fun _ _ _ _ Ha Z)|exact W].
    - right. right. split; [|auto]. intros (_ & p' & q' & Hr' & Hel). rewrite (ready_fun _ _ _ _ _ Hr Hr') in Hel.
      destruct Hel as [(X & Y & Z & W)|(X & _)]; [|congruence]. apply Hno. split; [exact Y|]. exists 0. exact Z.
  Qed.
End Mode.
