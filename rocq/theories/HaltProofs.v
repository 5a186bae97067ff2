(** What is told about driving, and by which packets *)
From Verif Require Import Prelude Address Instruction Checksum ZBits SpecCodec RxState Rx CodecProofs CodecProofs2 RxLogic SpecRx
  RxBitProofs RxBitProofs2 SpecExec ExecProofs SpecConf SpecCv CvProofs2 CvProofs8 ReadProofs SpecHalt.

Definition calm (e : event) : Prop := is_drive e = false.

Lemma calm_drives : forall es, Forall calm es -> drives es = [].
Proof. induction es as [|e es IH]; intros H; [reflexivity|]. inversion H as [|? ? H1 H2]; subst. unfold drives. cbn [filter]. rewrite H1. exact (IH H2). Qed.
Lemma drives_app : forall a b, drives (a ++ b) = drives a ++ drives b.
Proof. intros a b. apply filter_app. Qed.

Section Halt.
  Context {I : Type} (E : Env I).
  Implicit Types s : st I.

  Ltac hush := emits_tac; try reflexivity.
  Lemma calm_init : emits calm (init E). Proof. hush. Qed.
  Lemma calm_datagram : forall ds, emits calm (@datagram I ds).
  Proof.
    assert (K : forall ds, emits calm (@dyn_all I ds)) by (induction ds as [|a ds IH]; cbn [dyn_all]; [apply emits_ret|apply emits_bind; [hush|intro; exact IH]]).
    intros ds. unfold datagram. repeat first [apply K | emits1]; reflexivity.
  Qed.
  Lemma calm_receive : forall t, emits calm (receive E t). Proof. intros t. hush. Qed.
  Lemma calm_bidi1 : emits calm (biDiChannel1 E). Proof. hush. Qed.
  Lemma calm_bidi2 : emits calm (biDiChannel2 E). Proof. hush. Qed.
  Lemma calm_cb : forall c v, emits calm (run_cb E c v). Proof. intros [b|b] v; hush. Qed.

  Lemma calm_dispatch : forall n b t, byte b -> b <> 0x3C -> b <> 0x3F -> ~ 0x40 <= b < 0x80 -> emits calm (dispatch E n (b :: t)).
  Proof.
    intros n b t Hb H1 H2 H3 s a s' es H. unfold dispatch in H. cbn [decode_instruction] in H. rewrite bind_lift in H.
    assert (Hs : classify b <> ISpeedDirection).
    { assert (K := sweep8 (fun b => match classify b with ISpeedDirection => (0x40 <=? b) && (b <? 0x80) | _ => true end) ltac:(vm_compute; reflexivity) b Hb).
      cbv beta in K. intros X. rewrite X in K. lia. }
    destruct (classify b); try contradiction; revert s a s' es H.
    - change (emits calm (I := I) (ret tt)). hush.
    - change (emits calm (if n =? 0 then bind (at_ (b :: t) 0) (fun b0 => if b0 =? 0 then serviceMode E true else ret tt) else ret tt)). hush.
    - change (emits calm (consistControl E (b :: t))). hush.
    - change (emits calm (advancedOperations E n (b :: t))). unfold advancedOperations.
      intros s a s' es H. cbn [at_ nth_error] in H. rewrite bind_ret in H.
      replace (b =? 0x3C) with false in H by lia. replace (b =? 0x3F) with false in H by lia. revert s a s' es H.
      match goal with |- forall s a s' es, (if ?c then ?x else ?y) s = _ -> _ => change (emits calm (if c then x else y)) end. hush.
    - change (emits calm (functionGroup E n (b :: t))). hush.
    - change (emits calm (featureExpansion E n (b :: t))). hush.
    - change (emits calm (cvLong E n (b :: t))). hush.
    - change (emits calm (cvShort E n (b :: t))). hush.
    - change (emits calm (I := I) (ret tt)). hush.
  Qed.

  Lemma calm_service : forall s b s' es, in_service s = true -> executeCommand E s = Ok (b, s', es) -> Forall calm es.
  Proof.
    intros s b s' es Hsv H. unfold executeCommand in H. rewrite bind_get in H. unfold in_service in Hsv. rewrite Hsv in H.
    revert s b s' es Hsv H. intros s b s' es _. revert s b s' es. change (emits calm (executeService E)). hush.
  Qed.

  Lemma calm_stored : forall s es, storing s es -> Forall calm es.
  Proof.
    intros s es [H _]. apply (Forall_impl calm (P := is_store)); [|exact H].
    intros e He. destruct e; try contradiction; reflexivity.
  Qed.

  Lemma calm_execute : forall s p q b s' es, reached E s -> ready s p q -> ~ sets_speed p -> execute E s = Ok (b, s', es) -> Forall calm es.
  Proof.
    intros s p q b s' es Hre Hr Hn He. destruct (reached_ready E s p q Hre Hr) as [Hb Hl].
    destruct (execute_split E s p q Hr) as (s1 & e1 & Hk & Hp & Hs & He'). rewrite He in He'. apply calm_stored in Hs.
    destruct (executeCommand E s1) as [[[b2 s2] e2]|r] eqn:Ec; [|discriminate He']. inversion He'; subst. clear He'.
    apply Forall_app. split; [exact Hs|].
    assert (r_deque (rxs s1) = p :: q) as H3 by (unfold hk in Hk; destruct Hr; congruence).
    destruct (in_service s1) eqn:Esv; [exact (calm_service _ _ _ _ Esv Ec)|].
    destruct (command_operations E s1 p q Esv H3 Hb Hl) as [(Hf & m & _ & Hm)|(_ & Hm)].
    - rewrite Hm in Ec. pose proof (body_nonempty p Hl) as Hne. pose proof (body_bytes p Hb) as Hbb.
      destruct (body_of p) as [|b0 t] eqn:Eb; [congruence|]. inversion Hbb; subst.
      unfold sets_speed in Hn. rewrite Eb in Hn. cbn [hd In] in Hn.
      revert Ec. apply (emits_bind calm unit bool (dispatch E m (b0 :: t)) (fun _ => ret true)).
      + apply calm_dispatch; [assumption|intros X; apply Hn; auto|intros X; apply Hn; auto|intros X; apply Hn; auto].
      + intros _. apply emits_ret.
    - rewrite Hm in Ec. inversion Ec; subst. constructor.
  Qed.

  Lemma not_ready : forall l s, Rl l s -> SpecRx.taken [OExecute] l = [] -> execute E s = Ok (false, s, []).
  Proof.
    intros l s (_ & Hq & Hf & _) H. cbn [SpecRx.taken] in H. unfold execute. rewrite bind_get. rewrite Hq, Hf.
    destruct (l_fresh l); [reflexivity|]. destruct (l_queue l); [reflexivity|discriminate H].
  Qed.
  Lemma is_ready : forall l s, Rl l s -> SpecRx.taken [OExecute] l = [] \/ exists p q, ready s p q /\ SpecRx.taken [OExecute] l = [p].
  Proof.
    intros l s (_ & Hq & Hf & _). cbn [SpecRx.taken]. destruct (l_fresh l); [left; reflexivity|]. destruct (l_queue l) as [|p q]; [left; reflexivity|].
    right. exists p, q. split; [split; assumption|reflexivity].
  Qed.

  Lemma calm_step : forall o l s b s' es, reached E s -> Rl l s -> step E o s = Ok (b, s', es) ->
    (forall p, In p (SpecRx.taken [o] l) -> ~ sets_speed p) -> Forall calm es.
  Proof.
    intros o l s b s' es Hre HR H Ht.
    destruct o; cbn [step] in H.
    - revert H. apply (emits_bind calm _ _ (init E) (fun _ => ret false)); [apply calm_init|intros _; apply emits_ret].
    - revert s b s' es Hre HR H Ht. intros s b s' es _ _. intros H _. revert s b s' es H. change (emits calm (bind (@enable I) (fun _ => ret false))). hush.
    - revert s b s' es Hre HR H Ht. intros s b s' es _ _. intros H _. revert s b s' es H. change (emits calm (bind (@disable I) (fun _ => ret false))). hush.
    - revert H. apply (emits_bind calm _ _ (receive E time) (fun _ => ret false)); [apply calm_receive|intros _; apply emits_ret].
    - destruct (is_ready l s HR) as [K|(p & q & Hr & K)].
      + rewrite (not_ready l s HR K) in H. inversion H; subst. constructor.
      + apply (calm_execute s p q b s' es Hre Hr); [|exact H]. apply Ht. rewrite K. left. reflexivity.
    - revert H. apply (emits_bind calm _ _ (datagram ds) (fun _ => ret false)); [apply calm_datagram|intros _; apply emits_ret].
    - revert H. apply (emits_bind calm _ _ (biDiChannel1 E) (fun _ => ret false)); [apply calm_bidi1|intros _; apply emits_ret].
    - revert H. apply (emits_bind calm _ _ (biDiChannel2 E) (fun _ => ret false)); [apply calm_bidi2|intros _; apply emits_ret].
    - destruct (nth_error (pending s) i) as [c|]; [|inversion H; subst; constructor].
      revert H. apply (emits_bind calm _ _ (run_cb E c v) (fun _ => ret false)); [apply calm_cb|intros _; apply emits_ret].
  Qed.

  Lemma run_cons : forall o os s s' es, run E (o :: os) s = Ok (tt, s', es) ->
    exists b s1 e1 e2, step E o s = Ok (b, s1, e1) /\ run E os s1 = Ok (tt, s', e2) /\ es = e1 ++ e2.
  Proof.
    intros o os s s' es H. cbn [run] in H. unfold bind in H. destruct (step E o s) as [[[b s1] e1]|]; [|discriminate H].
    destruct (run E os s1) as [[[u s2] e2]|] eqn:E2; [|discriminate H]. destruct u. inversion H; subst. exists b, s1, e1, e2. auto.
  Qed.

  Lemma taken_cons : forall o os l, SpecRx.taken (o :: os) l = SpecRx.taken [o] l ++ SpecRx.taken os (listen o l).
  Proof. intros o os l. cbn [SpecRx.taken]. destruct o; cbn [List.app]; rewrite ?app_nil_r; reflexivity. Qed.

  Lemma calm_run : forall os l s s' es, reached E s -> Rl l s -> run E os s = Ok (tt, s', es) ->
    Forall (fun p => ~ sets_speed p) (SpecRx.taken os l) -> Forall calm es.
  Proof.
    induction os as [|o os IH]; intros l s s' es Hre HR H Ht.
    - cbn [run] in H. inversion H; subst. constructor.
    - apply run_cons in H. destruct H as (b & s1 & e1 & e2 & H1 & H2 & ->). rewrite taken_cons in Ht. apply Forall_app in Ht. destruct Ht as [Ht1 Ht2].
      apply Forall_app. split.
      + apply (calm_step o l s b s1 e1 Hre HR H1). apply Forall_forall. exact Ht1.
      + exact (IH _ _ _ _ (reached_step E s o b s1 e1 Hre H1) (step_refines E o l s b s1 e1 HR H1) H2 Ht2).
  Qed.

  Lemma driving_mode : forall os l s s' es, reached E s -> Rl l s -> in_service s = false -> run E os s = Ok (tt, s', es) ->
    Forall (fun p => ~ resets p) (SpecRx.taken os l) -> in_service s' = false.
  Proof.
    induction os as [|o os IH]; intros l s s' es Hre HR Hsv H Ht.
    - cbn [run] in H. inversion H; subst. exact Hsv.
    - apply run_cons in H. destruct H as (b & s1 & e1 & e2 & H1 & H2 & ->). rewrite taken_cons in Ht. apply Forall_app in Ht. destruct Ht as [Ht1 Ht2].
      refine (IH _ _ _ _ (reached_step E s o b s1 e1 Hre H1) (step_refines E o l s b s1 e1 HR H1) _ H2 Ht2).
      destruct (in_service s1) eqn:E1; [|reflexivity]. exfalso.
      destruct (entered_by E s o b s1 e1 Hre H1 Hsv E1) as (-> & _ & p & q & Hr & Hf & Hh & _).
      destruct (is_ready l s HR) as [K|(p' & q' & Hr' & K)].
      + cbn [step] in H1. rewrite (not_ready l s HR K) in H1. inversion H1; subst. congruence.
      + rewrite K in Ht1. inversion Ht1 as [|? ? Hn _]; subst. apply Hn. destruct Hr as [_ Hr], Hr' as [_ Hr']. rewrite Hr in Hr'. injection Hr' as <- _. split; assumption.
  Qed.

  Lemma stop_execute : forall s p q b s' es, reached E s -> ready s p q -> in_service s = false -> stops_all p ->
    execute E s = Ok (b, s', es) -> drives es = [ESpeed 0 (-1)].
  Proof.
    intros s p q b s' es Hre Hr Hsv (Hf & H0 & Hbody) He. destruct (reached_ready E s p q Hre Hr) as [Hb Hl].
    assert (Ha : acts_as (r_addrs (rxs s)) p 0) by (apply to_all; exact H0).
    assert (K : exists q' calls, reacts E s q' true calls /\ drives calls = [ESpeed 0 (-1)]).
    { destruct Hbody as [(c & t & Hbo & Hc)|(c & t & Hbo & Hc1 & Hc2)].
      - exists q. eexists. split; [exact (speed126_reacts E s p q 0 c t Hr Hsv Hb Hl Hf Ha Hbo)|].
        unfold speed126_calls. cbv zeta. rewrite Hc. reflexivity.
      - exists q. eexists. split; [exact (speed28_reacts E s p q 0 c t Hr Hsv Hb Hl Hf Ha Hbo Hc1)|].
        unfold speed28_calls. cbv zeta. rewrite Hc2. reflexivity. }
    destruct K as (q' & calls & (s2 & e1 & He' & Hst & _) & Hc). rewrite He in He'. inversion He'; subst.
    rewrite drives_app, (calm_drives e1) by (exact (calm_stored _ _ Hst)). exact Hc.
  Qed.

  (** The packets executed are [ps], the emergency stop and [qs] *)
  Lemma stopped : forall os i s es ps p qs, run E os (st0 i) = Ok (tt, s, es) -> SpecRx.taken os listener0 = ps ++ p :: qs ->
    stops_all p -> Forall (fun p => ~ resets p) ps -> Forall (fun p => ~ sets_speed p) qs ->
    exists before, drives es = before ++ [ESpeed 0 (-1)].
  Proof.
    intros os i s es ps p qs H Ht Hp Hps Hqs.
    destruct (taken_cut _ _ _ _ _ Ht) as (a & b & q & -> & Ha & Hfr & Hq & Hb).
    apply run_app in H. destruct H as (s1 & e1 & e2 & H1 & H2 & ->).
    assert (Hre0 : reached E (st0 i)) by (exists i, [], []; reflexivity).
    assert (Hre1 : reached E s1) by (exists i, a, e1; exact H1).
    pose proof (run_refines E _ _ _ _ _ (Rl0 i) H1) as HR1.
    assert (Hsv : in_service s1 = false).
    { apply (driving_mode a listener0 (st0 i) s1 e1 Hre0 (Rl0 i)); [reflexivity|exact H1|rewrite Ha; exact Hps]. }
    apply run_cons in H2. destruct H2 as (x & s2 & e3 & e4 & H2 & H3 & ->).
    assert (Hr : ready s1 p q) by (destruct HR1 as (_ & A & B & _); split; congruence).
    pose proof (stop_execute s1 p q x s2 e3 Hre1 Hr Hsv Hp H2) as Hd.
    pose proof (calm_run b _ s2 s e4 (reached_step E s1 OExecute x s2 e3 Hre1 H2) (step_refines E OExecute _ s1 x s2 e3 HR1 H2) H3) as Hc.
    rewrite Hb in Hc. apply Hc, calm_drives in Hqs. exists (drives e1).
    rewrite !drives_app, Hd, Hqs, app_nil_r. reflexivity.
  Qed.
End Halt.
