(** Interrupted executions of a decoder without automatic logon do what execute() does. *)
From Verif Require Import Prelude Address SpecCodec RxState Rx RxLogic SpecRx RxBitProofs RxBitProofs4
  SpecExec ExecProofs SpecConf ConfProofs SpecCv
  Preempt PreemptData SpecPreempt PreemptProofs PreemptProofs2 PreemptProofs3 PreemptProofs4 PreemptLoop SpecNoLogon NoLogonProofs.

Ltac ko :=
  lazymatch goal with
  | |- keeps _ (gets _) => intros ? ? ? ? H; inversion H; reflexivity
  | |- keeps _ (ask _ _ _) => intros ? ? ? ? H; unfold ask in H;
      destruct (e_async _ _ _) as [[?|] ?]; inversion H; reflexivity
  | |- keeps _ front => intros s0 ? ? ? H; unfold front in H;
      destruct (r_deque (rxs s0)); inversion H; reflexivity
  | |- keeps _ (front_at _ _) => intros s0 ? ? ? H; unfold front_at in H;
      destruct (r_deque (rxs s0)); [discriminate|];
      destruct (nth_error _ _); inversion H; reflexivity
  | |- keeps _ (front_size _) => intros s0 ? ? ? H; unfold front_size in H;
      destruct (r_deque (rxs s0)); inversion H; reflexivity
  | |- keeps _ front_address => intros s0 ? ? ? H; unfold front_address in H;
      destruct (r_deque (rxs s0)); [discriminate|];
      destruct (decode_address _); inversion H; reflexivity
  | |- keeps _ (front_instruction _) => intros s0 ? ? ? H; unfold front_instruction in H;
      destruct (r_deque (rxs s0)); [discriminate|];
      destruct (Instruction.decode_instruction _); inversion H; reflexivity
  | |- keeps _ (fun s => Ok (nth_error (pending s) _, s, [])) => intros ? ? ? ? H; inversion H; reflexivity
  | |- _ => keeps_tac
  end.

Section Safe.
  Context {I : Type} (E : Env I) (Hno : never_logs_on E).
  Implicit Types s : st I.

  (** No step of the program turns automatic logon on *)
  Fixpoint safe {A} (P : prog (I := I) A) : Prop :=
    match P with
    | Done _ => True
    | Act B m k => (forall s b s1 e, m s = Ok (b, s1, e) -> logon_off s -> logon_off s1) /\
                   forall b, (exists s s1 e, m s = Ok (b, s1, e)) -> safe (k b)
    end.
  Definition on (r : rx) : bool := logon_enabled (r_conf r).
  Lemma keeps_safe : forall B (m : M (I := I) B), keeps on m -> forall s b s1 e, m s = Ok (b, s1, e) -> logon_off s -> logon_off s1.
  Proof. intros B m H s b s1 e H1 Ho. unfold logon_off in *. pose proof (H _ _ _ _ H1) as K. unfold on in K. congruence. Qed.
  Lemma safe_pbind : forall A C (P : prog A) (k : A -> prog C), safe P -> (forall a, safe (k a)) -> safe (pbind P k).
  Proof.
    intros A C P k. induction P as [a|B m h IH]; intros HP Hk; cbn [pbind safe] in *; [apply Hk|].
    destruct HP as [Hm Hh]. split; [exact Hm|]. intros b Hb. apply IH; auto.
  Qed.
  Lemma safe_act : forall B (m : M (I := I) B), keeps on m -> safe (act m).
  Proof. intros B m H. split; [apply keeps_safe, H|]. intros. exact Logic.I. Qed.
  Lemma safe_when : forall b (P : prog (I := I) unit), safe P -> safe (whenP b P).
  Proof. intros [] P H; [exact H|exact Logic.I]. Qed.
  Lemma safe_local : forall A (m : res A), safe (local m).
  Proof. intros A [a|u]; [exact Logic.I|]. apply safe_act, keeps_fail. Qed.
  Lemma safe_cv28 : forall A (k : Z -> prog (I := I) A), (forall b, Z.testbit b 7 = false -> safe (k b)) -> safe (pbind (act (readCv E 27)) k).
  Proof.
    intros A k Hk. cbn [pbind act safe]. split.
    - apply keeps_safe. intros s b s1 e H. unfold readCv in H. destruct (e_readCv E (app s) 27). inversion H; reflexivity.
    - intros b (s & s1 & e & H). apply Hk. unfold readCv in H. pose proof (Hno (app s)) as K. destruct (e_readCv E (app s) 27). inversion H; subst. exact K.
  Qed.
  Lemma safe_clear : safe (wr (set_logon_enabled false)).
  Proof. split; [intros s b s1 e H _; inversion H; reflexivity|intros; exact Logic.I]. Qed.
  Lemma keeps_on_modify : forall f : rx -> rx, (forall r, on (f r) = on r) -> keeps (I := I) on (modify f).
  Proof. intros f H. apply keeps_modify. exact H. Qed.
  Ltac safe1 :=
    lazymatch goal with
    | |- safe (pbind (act (readCv _ 27)) _) => apply safe_cv28; intros ?cv28 ?H28
    | H : Z.testbit ?c 7 = false |- safe (pbind (wr (set_logon_enabled (_ && Z.testbit ?c 7))) _) => rewrite H, andb_false_r; apply safe_pbind; [apply safe_clear|intro]
    | |- safe (pbind _ _) => apply safe_pbind; [|intro]
    | |- safe (Done _) => exact Logic.I
    | |- safe (act _) => apply safe_act; ko
    | |- safe (local _) => apply safe_local
    | |- safe (whenP _ _) => apply safe_when
    | |- safe (if ?b then _ else _) => destruct b
    | |- safe (match ?x with _ => _ end) => destruct x
    | |- safe (let _ := _ in _) => cbv zeta
    | |- safe ?P => let h := head_of P in unfold h
    end.
  Lemma safe_init : safe (initP E). Proof. unfold initP. repeat safe1. Qed.
  Lemma safe_run_cb : forall c v, safe (run_cbP E c v). Proof. intros. repeat safe1. Qed.
  Lemma safe_cb_byte : forall b v, safe (cb_byteP E b v). Proof. intros b v. unfold cb_byteP. repeat safe1. Qed.
  Lemma safe_cb_bit : forall b v, safe (cb_bitP E b v). Proof. intros b v. unfold cb_bitP. repeat safe1. Qed.
  Ltac safe2 :=
    lazymatch goal with
    | |- safe (initP _) => apply safe_init
    | |- safe (run_cbP _ _ _) => apply safe_run_cb
    | |- safe (cb_byteP _ _ _) => apply safe_cb_byte
    | |- safe (cb_bitP _ _ _) => apply safe_cb_bit
    | _ => safe1
    end.
  Lemma safe_cvWrite : forall a b, safe (cvWriteP E a b). Proof. intros. repeat safe2. Qed.
  Lemma safe_cvWriteBit : forall a b o, safe (cvWriteBitP E a b o). Proof. intros. repeat safe2. Qed.
  Lemma safe_cvVerify : forall a b, safe (cvVerifyP E a b). Proof. intros. repeat safe2. Qed.
  Lemma safe_cvVerifyBit : forall a b o, safe (cvVerifyBitP E a b o). Proof. intros. repeat safe2. Qed.
  Ltac safe3 :=
    lazymatch goal with
    | |- safe (cvWriteP _ _ _) => apply safe_cvWrite
    | |- safe (cvWriteBitP _ _ _ _) => apply safe_cvWriteBit
    | |- safe (cvVerifyP _ _ _) => apply safe_cvVerify
    | |- safe (cvVerifyBitP _ _ _ _) => apply safe_cvVerifyBit
    | _ => safe2
    end.
  Lemma safe_cvLong : forall a o, safe (cvLongP E a o). Proof. intros. repeat safe3. Qed.
  Ltac safe4 := lazymatch goal with |- safe (cvLongP _ _ _) => apply safe_cvLong | _ => safe3 end.
  Lemma safe_cvShort : forall a o, safe (cvShortP E a o). Proof. intros. repeat safe4. Qed.
  Lemma safe_registerMode : forall o, safe (registerModeP E o). Proof. intros. repeat safe4. Qed.
  Lemma safe_serviceMode : forall o, safe (serviceModeP E o). Proof. intros. repeat safe4. Qed.
  Lemma safe_consistControl : forall o, safe (consistControlP E o). Proof. intros. repeat safe4. Qed.
  Lemma safe_advanced : forall a o, safe (advancedOperationsP E a o). Proof. intros. repeat safe4. Qed.
  Lemma safe_speed : forall a o, safe (speedAndDirectionP E a o). Proof. intros. repeat safe4. Qed.
  Lemma safe_function : forall a o, safe (functionGroupP E a o). Proof. intros. repeat safe4. Qed.
  Lemma safe_store : safe (logonStoreP E). Proof. repeat safe4. Qed.
  Lemma safe_times : safe (updateTimepointsP E). Proof. repeat safe4. Qed.
  Lemma safe_tos_test : safe (tos_testP E). Proof. repeat safe4. Qed.
  Lemma safe_instruct : forall a o, safe (instructP E a o). Proof. intros. repeat safe4. Qed.
  Lemma safe_execute : safe (executeP E).
  Proof. repeat lazymatch goal with |- safe (instructP _ _ _) => apply safe_instruct | |- _ => safe4 end. Qed.
  Lemma safe_callback : forall i v, safe (callbackP E i v).
  Proof. intros. repeat safe4. Qed.
  Lemma safe_search_rest : forall B (f : rx -> B), safe (act (gets f)).
  Proof. intros B f. repeat safe4. Qed.

  (** Afterwards it is still off *)
  Lemma off_flat : forall A (P : prog A) s a s1 es, safe P -> logon_off s -> flat P s = Ok (a, s1, es) -> logon_off s1.
  Proof.
    intros A P. induction P as [a|B m k IH]; intros s a' s1 es HP Ho H.
    - inversion H; subst. exact Ho.
    - destruct HP as [H1 H2]. cbn [flat] in H. apply bind_inv in H. destruct H as (b & s2 & e1 & e2 & Ha & Hb & ->).
      exact (IH b _ _ _ _ (H2 b (ex_intro _ s (ex_intro _ s2 (ex_intro _ e1 Ha)))) (H1 _ _ _ _ Ha Ho) Hb).
  Qed.
End Safe.
Ltac safe_on H :=
  lazymatch goal with
  | |- safe (cvLongP _ _ _) => apply safe_cvLong; exact H
  | |- safe (cvShortP _ _ _) => apply safe_cvShort; exact H
  | |- safe (registerModeP _ _) => apply safe_registerMode; exact H
  | |- safe (serviceModeP _ _) => apply safe_serviceMode; exact H
  | |- safe (consistControlP _ _) => apply safe_consistControl; exact H
  | |- safe (advancedOperationsP _ _ _) => apply safe_advanced; exact H
  | |- safe (speedAndDirectionP _ _ _) => apply safe_speed; exact H
  | |- safe (functionGroupP _ _ _) => apply safe_function; exact H
  | |- safe (logonStoreP _) => apply safe_store
  | |- safe (updateTimepointsP _) => apply safe_times
  | |- safe (tos_testP _) => apply safe_tos_test
  | |- safe (pbind _ _) => apply safe_pbind; [|intro]
  | |- safe (Done _) => exact Logic.I
  | |- safe (rd _) => apply safe_search_rest
  | |- safe (wr _) => apply safe_act, keeps_modify; intros; reflexivity
  | |- safe (act (gets _)) => apply safe_search_rest
  | |- safe (act (modify _)) => apply safe_act, keeps_modify; intros; reflexivity
  | |- safe (act _) => apply safe_act; ko
  | |- safe (local _) => apply safe_local
  | |- safe (if ?b then _ else _) => destruct b
  | |- safe (let _ := _ in _) => cbv zeta
  end.

Section TornOff.
  Context {I : Type} (E : Env I) (Hno : never_logs_on E).
  Hypothesis deaf : forall i d, e_hook E i (ETransmitBiDi d) = i.
  Variable p : list Z.
  Implicit Types s : st I.
  Ltac safe_tac := repeat safe_on Hno; fail.
  Notation alike := (@alike I).

  Lemma off_alike : forall s s', alike p s s' -> logon_off s -> logon_off s'.
  Proof. intros s s' (H & _). apply off_mask. exact H. Qed.
  Lemma off_back : forall s s', alike p s s' -> logon_off s' -> logon_off s.
  Proof. intros s s' (H & _). apply off_mask. symmetry. exact H. Qed.

  Lemma handlers_ignore : forall os (l : listener) s s' s1 es,
    Forall handler os -> logon_off s' -> Rl l s' -> near s s' ->
    run E os s' = Ok (tt, s1, es) -> near s s1 /\ commands es = [].
  Proof.
    induction os as [|o os IH]; intros l s s' s1 es Hh Hn HR Ha H.
    { inversion H; subst. auto. }
    inversion Hh as [|? ? Ho Hos]; subst. cbn [run] in H.
    apply bind_inv in H. destruct H as (b & s2 & e1 & e2 & H1 & H2 & ->).
    pose proof (step_refines E _ _ _ _ _ _ HR H1) as HR2.
    assert (near s s2 /\ commands e1 = [] /\ mask (rxs s2) = mask (rxs s')) as (Ha2 & He1 & Hm2).
    { destruct Ha as (A1 & A2 & A3 & A6).
      destruct o as [| | |t| |ds| | |j v]; try contradiction; cbn [step] in H1;
        apply bind_inv in H1; destruct H1 as (u & s3 & e3 & e4 & H1 & Hr & ->); inversion Hr; subst s3 e4; clear Hr;
        rewrite app_nil_r.
      - destruct u.
        destruct (ignores_receive E t _ _ _ _ Hn H1) as (B1 & B2 & B3 & B4 & B5).
        subst e3. split; [|split; [reflexivity|exact B1]]. unfold near. rewrite B1, B2, B3, B5. repeat split; auto.
      - destruct (leaves_biDi1 E deaf _ _ _ _ H1) as (B1 & B2 & B3 & B4 & B5 & B6).
        split; [|split; [apply commands_none; exact B5|exact B1]]. unfold near. rewrite B1, B3, B4. repeat split; auto.
      - destruct (leaves_biDi2 E deaf _ _ _ _ H1) as (B1 & B2 & B3 & B4 & B5 & B6).
        split; [|split; [apply commands_none; exact B5|exact B1]]. unfold near. rewrite B1, B3, B4. repeat split; auto. }
    destruct (IH _ _ _ _ _ Hos (off_mask _ _ Hm2 Hn) HR2 Ha2 H2) as [Ha3 He2].
    split; [exact Ha3|]. rewrite commands_app, He1, He2. reflexivity.
  Qed.

  Lemma handlers_alike : forall os l s s' s1 es,
    Forall handler os -> logon_off s' -> Rl l s' -> alike p s s' ->
    run E os s' = Ok (tt, s1, es) -> alike p s s1 /\ commands es = [].
  Proof.
    intros os l s s' s1 es Hh Hn HR (A1 & A2 & A3 & A4 & A5 & A6) H.
    destruct (handlers_ignore os l s s' s1 es Hh Hn HR) as ((B1 & B2 & B3 & B4) & He); [repeat split; auto|exact H|].
    split; [|exact He]. repeat split; auto.
    destruct (run_refines E _ _ _ _ _ HR H) as (_ & -> & _). destruct HR as (_ & Hq & _). rewrite Hq in A5.
    rewrite queue_grows by (apply handler_not_execute; exact Hh).
    destruct (l_queue l); [discriminate|exact A5].
  Qed.

  (** [P] does the same with interrupts as without *)
  Definition steady {A} (P : prog (I := I) A) : Prop :=
    forall w l s s' a sn sv s1' es',
    Forall (Forall handler) w -> logon_off s' -> Rl l s' -> alike p s s' ->
    preempted E P w s' = Ok ((a, sn, sv), s1', es') ->
    Rl (listen_all sv l) s1' /\ logon_off s1' /\
    exists s1 es, flat P s = Ok (a, s1, es) /\ alike p s1 s1' /\ commands es' = es.

  Lemma steady_acts : forall A (P : prog A), acts (@blind I p) P -> safe P -> steady P.
  Proof.
    intros A P. induction P as [a|B m k IH]; intros HP HS w l s s' a' sn sv s1' es' Hw Hn HR Ha H.
    - inversion H; subst. split; [exact HR|]. split; [exact Hn|]. exists s, []. repeat split; auto; apply Ha.
    - destruct HP as [[Hk Hm] HP]. destruct HS as [HS1 HS2]. apply preempted_inv in H.
      destruct H as (s2 & e1 & b & s3 & e2 & a0 & sn1 & sv1 & e3 & H1 & H2 & H3 & Ho & ->).
      injection Ho as -> -> ->. 
      destruct (handlers_alike _ _ _ _ _ _ (handlers_hd w Hw) Hn HR Ha H1) as [Ha2 He1].
      pose proof (run_refines E _ _ _ _ _ HR H1) as HR2.
      pose proof (Rl_core _ _ _ (Hk _ _ _ _ H2) HR2) as HR3.
      assert (Hn2 : logon_off s3) by (refine (HS1 _ _ _ _ H2 _); exact (off_alike _ _ Ha2 (off_back _ _ Ha Hn))).
      specialize (Hm _ _ Ha2). rewrite H2 in Hm.
      destruct (m s) as [[[b' s4] e4]|u] eqn:Em; [|contradiction].
      destruct Hm as (-> & -> & Ha3 & Hf).
      destruct (IH b (HP b) (HS2 b (ex_intro _ s2 (ex_intro _ s3 (ex_intro _ e2 H2)))) _ _ _ _ _ _ _ _ _ (handlers_tl w Hw) Hn2 HR3 Ha3 H3) as (HR4 & Hn4 & s5 & es & H5 & Ha5 & He).
      split; [rewrite listen_all_app; exact HR4|]. split; [exact Hn4|]. exists s5, (e2 ++ es).
      split; [cbn [flat]; unfold bind; rewrite Em, H5; reflexivity|]. split; [exact Ha5|].
      rewrite !commands_app, He1, He, (commands_all e2) by exact Hf. reflexivity.
  Qed.

  Lemma steady_bind : forall A C (P : prog A) (k : A -> prog C),
    steady P -> (forall a, steady (k a)) -> steady (pbind P k).
  Proof.
    intros A C P k HP Hk w l s s' c sn sv s1' es' Hw Hn HR Ha H. apply preempted_pbind in H.
    destruct H as (a & sn1 & sv1 & s1 & e1 & c' & sn2 & sv2 & e2 & H1 & H2 & Ho & ->).
    injection Ho as -> -> ->. 
    destruct (HP _ _ _ _ _ _ _ _ _ Hw Hn HR Ha H1) as (HR1 & Hn2 & s2 & es1 & F1 & Ha1 & He1).
    destruct (Hk a _ _ _ _ _ _ _ _ _ (handlers_skipn _ _ Hw) Hn2 HR1 Ha1 H2) as (HR2 & Hn3 & s3 & es2 & F2 & Ha2 & He2).
    split; [rewrite listen_all_app; exact HR2|]. split; [exact Hn3|]. exists s3, (es1 ++ es2).
    split; [rewrite flat_pbind; unfold bind; rewrite F1, F2; reflexivity|]. split; [exact Ha2|].
    rewrite commands_app, He1, He2. reflexivity.
  Qed.
  Lemma steady_Done : forall A (a : A), steady (Done a).
  Proof. intros A a. apply steady_acts; exact Logic.I. Qed.

  Notation mute := (@PreemptProofs4.mute I).
  Notation mute' := (@PreemptProofs4.mute' I).
  (** [s] need not be empty handed *)
  Lemma mute_run : forall A (P : prog A), acts mute P ->
    forall w l s s' a sn sv s1' es',
    Forall (Forall handler) w -> logon_off s' -> Rl l s' -> alike p s s' ->
    preempted E P w s' = Ok ((a, sn, sv), s1', es') ->
    Rl (listen_all sv l) s1' /\ alike p s s1' /\ commands es' = [].
  Proof.
    intros A P. induction P as [a|B m k IH]; intros HP w l s s' a' sn sv s1' es' Hw Hn HR Ha H.
    - inversion H; subst. split; [exact HR|]. split; [exact Ha|reflexivity].
    - destruct HP as [[Hk Hm] HP]. apply preempted_inv in H.
      destruct H as (s2 & e1 & b & s3 & e2 & a0 & sn1 & sv1 & e3 & H1 & H2 & H3 & Ho & ->).
      injection Ho as -> -> ->. 
      destruct (handlers_alike _ _ _ _ _ _ (handlers_hd w Hw) Hn HR Ha H1) as [Ha2 He1].
      pose proof (run_refines E _ _ _ _ _ HR H1) as HR2.
      pose proof (Hk _ _ _ _ H2) as Hc.
      pose proof (Rl_core _ _ _ Hc HR2) as HR3.
      destruct (Hm _ _ _ _ H2) as (B1 & B2 & B3 & -> & B5).
      assert (Ha3 : alike p s s3).
      { destruct Ha2 as (A1 & A2 & A3 & A4 & A5 & A6). unfold core in Hc. injection Hc as _ Hd _.
        unfold alike. rewrite B1, B2, B3, B5, Hd. repeat split; auto. }
      pose proof (off_alike _ _ Ha3 (off_back _ _ Ha Hn)) as Hn2.
      destruct (IH b (HP b) _ _ _ _ _ _ _ _ _ (handlers_tl w Hw) Hn2 HR3 Ha3 H3) as (HR4 & Ha4 & He).
      split; [rewrite listen_all_app; exact HR4|]. split; [exact Ha4|].
      rewrite !commands_app, He1, He. reflexivity.
  Qed.
  (** Likewise when the undisturbed decoder has a tip-off search answer waiting *)
  Lemma mute_run' : forall A (P : prog A), acts mute' P ->
    forall w l s s' a sn sv s1' es',
    Forall (Forall handler) w -> logon_off s' -> Rl l s' -> alike p s s' -> tos_deque (r_bidi (rxs s)) <> [] ->
    preempted E P w s' = Ok ((a, sn, sv), s1', es') ->
    Rl (listen_all sv l) s1' /\ alike p s s1' /\ commands es' = [].
  Proof.
    intros A P. induction P as [a|B m k IH]; intros HP w l s s' a' sn sv s1' es' Hw Hn HR Ha Ht H.
    - inversion H; subst. split; [exact HR|]. split; [exact Ha|reflexivity].
    - destruct HP as [[Hk Hm] HP]. apply preempted_inv in H.
      destruct H as (s2 & e1 & b & s3 & e2 & a0 & sn1 & sv1 & e3 & H1 & H2 & H3 & Ho & ->).
      injection Ho as -> -> ->. 
      destruct (handlers_alike _ _ _ _ _ _ (handlers_hd w Hw) Hn HR Ha H1) as [Ha2 He1].
      pose proof (run_refines E _ _ _ _ _ HR H1) as HR2.
      pose proof (Hk _ _ _ _ H2) as Hc.
      pose proof (Rl_core _ _ _ Hc HR2) as HR3.
      destruct (Hm _ _ _ _ H2) as (B1 & B2 & B3 & ->).
      assert (Ha3 : alike p s s3).
      { destruct Ha2 as (A1 & A2 & A3 & A4 & A5 & A6). unfold core in Hc. injection Hc as _ Hd _.
        unfold alike. rewrite B1, B2, B3, Hd. repeat split; auto. intro Hx. contradiction. }
      pose proof (off_alike _ _ Ha3 (off_back _ _ Ha Hn)) as Hn2.
      destruct (IH b (HP b) _ _ _ _ _ _ _ _ _ (handlers_tl w Hw) Hn2 HR3 Ha3 Ht H3) as (HR4 & Ha4 & He).
      split; [rewrite listen_all_app; exact HR4|]. split; [exact Ha4|].
      rewrite !commands_app, He1, He. reflexivity.
  Qed.

  Lemma steady_mute : forall (P : prog unit) (m : M unit), acts mute P -> sim p P m ->
    (forall s, exists s1, m s = Ok (tt, s1, []) /\ mask (rxs s1) = mask (rxs s) /\ app s1 = app s /\
       pending s1 = pending s /\ r_deque (rxs s1) = r_deque (rxs s) /\
       tos_deque (r_bidi (rxs s1)) = tos_deque (r_bidi (rxs s))) ->
    steady P.
  Proof.
    intros P m HP Hs Hm w l s s' [] sn sv s1' es' Hw Hn HR Ha H.
    destruct (mute_run _ _ HP _ _ _ _ _ _ _ _ _ Hw Hn HR Ha H) as (HR1 & Ha1 & He).
    split; [exact HR1|]. split; [exact (off_alike _ _ Ha1 (off_back _ _ Ha Hn))|]. destruct (Hm s) as (s1 & H1 & M1 & M2 & M3 & M4 & M5).
    exists s1, []. split; [rewrite (Hs s); [exact H1|apply Ha]|]. split; [|exact He].
    destruct Ha1 as (A1 & A2 & A3 & A4 & A5 & A6). unfold alike. rewrite M1, M2, M3, M4, M5. repeat split; auto.
  Qed.

  Ltac mute_leaf :=
    lazymatch goal with
    | |- mute _ (gets _) => split; [intros ? ? ? ? H; inversion H; reflexivity|intros ? ? ? ? H; inversion H; subst; repeat split]
    | |- mute _ (modify _) => split; [apply keeps_modify; reflexivity|intros ? ? ? ? H; inversion H; subst; repeat split]
    | |- mute _ (fail _) => split; [apply keeps_fail|intros ? ? ? ? H; discriminate]
    | |- mute' _ (gets _) => split; [intros ? ? ? ? H; inversion H; reflexivity|intros ? ? ? ? H; inversion H; subst; repeat split]
    | |- mute' _ (modify _) => split; [apply keeps_modify; reflexivity|intros ? ? ? ? H; inversion H; subst; repeat split]
    | |- mute' _ (fail _) => split; [apply keeps_fail|intros ? ? ? ? H; discriminate]
    end.

  Lemma steady_adr : steady adrP.
  Proof.
    apply (steady_mute _ adr); [acts_tac; mute_leaf|apply sim_adr|].
    intros s. unfold adr. 
    assert (Hp : forall a, exists s1,
      bind (lift (adrHigh (rxs s) a)) (fun hi => bind (lift (adrLow (rxs s) a)) (fun lo =>
        modify (set_adr_deque (adr_deque (r_bidi (rxs s)) ++ [hi; lo])))) s = Ok (tt, s1, []) /\
      mask (rxs s1) = mask (rxs s) /\ app s1 = app s /\ pending s1 = pending s /\
      r_deque (rxs s1) = r_deque (rxs s) /\ tos_deque (r_bidi (rxs s1)) = tos_deque (r_bidi (rxs s))).
    { intros a. destruct (adrHigh_ok (rxs s) a) as (x & -> & _). destruct (adrLow_ok (rxs s) a) as (y & -> & _).
      eexists. split; [reflexivity|]. repeat split. }
    assert (Hr : exists s1, ret (I := I) tt s = Ok (tt, s1, []) /\
      mask (rxs s1) = mask (rxs s) /\ app s1 = app s /\ pending s1 = pending s /\
      r_deque (rxs s1) = r_deque (rxs s) /\ tos_deque (r_bidi (rxs s1)) = tos_deque (r_bidi (rxs s))).
    { eexists. split; [reflexivity|]. repeat split. }
    rewrite bind_get. cbv zeta.
    destruct (_ || _); [exact Hr|]. destruct (negb _); [apply Hp|].
    destruct (aval _ =? 0); [apply Hp|]. destruct (_ && _); [apply Hp|exact Hr].
  Qed.
  Lemma steady_qos : steady updateQosP.
  Proof.
    apply (steady_mute _ updateQos); [acts_tac; mute_leaf|apply sim_updateQos|].
    intros s. unfold updateQos. rewrite bind_get. cbv zeta. destruct (_ <? _).
    - eexists. split; [reflexivity|]. repeat split.
    - eexists. split; [reflexivity|]. repeat split.
  Qed.

  Lemma steady_search : steady searchP.
  Proof.
    unfold searchP.
    match goal with |- steady (pbind (rd ?f) (fun full : bool => if full then _ else ?P)) => set (rest := P) end.
    assert (H1 : acts (@blind I p) rest).
    { unfold rest. repeat acts1; try blind_leaf.
      all: try (apply blind_gets; intros r r' Hm;
                assert (Hp : primary (r_addrs r') = primary (r_addrs r)) by masked;
                assert (Hc : consist (r_addrs r') = consist (r_addrs r)) by masked;
                unfold adrHigh, adrLow; rewrite Hp, Hc; reflexivity).
      intros r r' _ Hx. destruct (tos_deque (r_bidi r)); discriminate. }
    assert (H3 : safe rest).
    { unfold rest. safe_tac. }
    assert (H2 : acts mute' rest).
    { unfold rest. repeat acts1; mute_leaf. }
    clearbody rest.
    intros w l s s' [] sn sv s1' es' Hw Hn HR Ha H. unfold rd, act in *. cbn [pbind] in *.
    apply preempted_inv in H.
    destruct H as (s2 & e1 & b & s3 & e2 & a0 & sn1 & sv1 & e3 & F1 & F2 & F3 & Ho & ->).
    injection Ho as -> -> ->. 
    destruct (handlers_alike _ _ _ _ _ _ (handlers_hd w Hw) Hn HR Ha F1) as [Ha2 He1].
    pose proof (run_refines E _ _ _ _ _ HR F1) as HR2.
    pose proof (off_alike _ _ Ha2 (off_back _ _ Ha Hn)) as Hn2.
    inversion F2; subst b s3 e2; clear F2.
    cbn [flat]. unfold bind at 1, gets at 1. cbn iota beta.
    rewrite listen_all_app, !commands_app, He1. cbn [List.app commands filter].
    destruct (tos_deque (r_bidi (rxs s))) as [|d q] eqn:Et.
    - assert (Ht2 : tos_deque (r_bidi (rxs s2)) = []) by (destruct Ha2 as (_ & _ & _ & _ & _ & Hx); apply Hx, Et).
      rewrite Ht2 in F3. cbn [length Nat.eqb negb] in F3 |- *.
      destruct (steady_acts _ _ H1 H3 _ _ _ _ _ _ _ _ _ (handlers_tl w Hw) Hn2 HR2 Ha2 F3) as (HR4 & Hn4 & s5 & es & H5 & Ha5 & He).
      split; [exact HR4|]. split; [exact Hn4|]. exists s5, es. rewrite H5. split; [reflexivity|]. split; [exact Ha5|exact He].
    - cbn [length Nat.eqb negb flat ret]. 
      destruct (negb (length (tos_deque (r_bidi (rxs s2))) =? 0)%nat).
      + inversion F3; subst. split; [exact HR2|]. split; [exact Hn2|]. exists s, []. split; [reflexivity|]. split; [exact Ha2|reflexivity].
      + destruct (mute_run' _ _ H2 _ _ _ _ _ _ _ _ _ (handlers_tl w Hw) Hn2 HR2 Ha2 ltac:(rewrite Et; discriminate) F3) as (HR4 & Ha4 & He).
        split; [exact HR4|]. split; [exact (off_alike _ _ Ha4 (off_back _ _ Ha Hn))|]. exists s, []. split; [reflexivity|]. split; [exact Ha4|exact He].
  Qed.
  Lemma steady_tipOff : steady (tipOffSearchP E).
  Proof.
    unfold tipOffSearchP. apply steady_bind; [apply steady_acts; [apply b_tos_test|safe_tac]|]. intros [].
    { cbn [pbind]. apply steady_Done. }
    apply steady_search.
  Qed.

  Ltac steady1 :=
    lazymatch goal with
    | |- steady (pbind _ _) => apply steady_bind; [|intro]
    | |- steady (Done _) => apply steady_Done
    | |- steady (if ?b then _ else _) => destruct b
    | |- steady (match ?x with _ => _ end) => destruct x
    | |- steady (let _ := _ in _) => cbv zeta
    | |- steady (act _) => apply steady_acts; [apply acts_act; blind_leaf|safe_tac]
    | |- steady (tipOffSearchP _) => apply steady_tipOff
    | |- steady (cvLongP _ _ _) => apply steady_acts; [apply b_cvLong|safe_tac]
    | |- steady (cvShortP _ _ _) => apply steady_acts; [apply b_cvShort|safe_tac]
    | |- steady (registerModeP _ _) => apply steady_acts; [apply b_registerMode|safe_tac]
    | |- steady (serviceModeP _ _) => apply steady_acts; [apply b_serviceMode|safe_tac]
    | |- steady (consistControlP _ _) => apply steady_acts; [apply b_consistControl|safe_tac]
    | |- steady (advancedOperationsP _ _ _) => apply steady_acts; [apply b_advanced|safe_tac]
    | |- steady (speedAndDirectionP _ _ _) => apply steady_acts; [apply b_speed|safe_tac]
    | |- steady (functionGroupP _ _ _) => apply steady_acts; [apply b_function|safe_tac]
    | |- steady ?P => let h := head_of P in unfold h
    end.
  Lemma steady_service : steady (executeServiceP E).
  Proof. repeat steady1. Qed.
  Lemma steady_operations : steady (executeOperationsP E).
  Proof.
    assert (Hi : forall a o, steady (instructP E a o)) by (intros; repeat steady1).
    unfold executeOperationsP. apply steady_bind; [apply steady_acts; [apply acts_act, blind_front_address|safe_tac]|intro a].
    assert (Hd : forall a o, steady (executeOperationsAddressedP E a o)).
    { intros b o. unfold executeOperationsAddressedP.
      repeat lazymatch goal with |- steady (instructP _ _ _) => apply Hi | _ => steady1 end. }
    destruct (atyp a); try apply steady_Done; apply Hd.
  Qed.
  Lemma steady_handle : steady (handleP E).
  Proof.
    unfold handleP.
    apply steady_bind; [apply steady_adr|intros _].
    apply steady_bind; [apply steady_acts; [apply b_store|safe_tac]|intros _].
    apply steady_bind; [apply steady_qos|intros _].
    apply steady_bind; [apply steady_acts; [apply b_times|safe_tac]|intros _].
    apply steady_bind; [apply steady_acts; [apply acts_act, blind_gets; masked|safe_tac]|intros []].
    - apply steady_service.
    - apply steady_operations.
  Qed.
End TornOff.
