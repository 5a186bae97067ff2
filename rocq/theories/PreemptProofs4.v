(** Interrupted executions do what execute() does. *)
From Verif Require Import Prelude Address RxState Rx RxLogic SpecRx RxBitProofs RxBitProofs4 ExecProofs Preempt SpecPreempt PreemptProofs PreemptProofs2 PreemptProofs3.

Lemma no_logon_app : forall a b l, no_logon (a ++ b) l -> no_logon a l /\ no_logon b (listen_all a l).
Proof.
  induction a as [|o a IH]; intros b l H; [split; [exact Logic.I|exact H]|].
  destruct H as [H1 H2]. apply IH in H2. destruct H2 as [H2 H3]. split; [split; assumption|exact H3].
Qed.
Lemma commands_app : forall a b, commands (a ++ b) = commands a ++ commands b.
Proof. intros a b. unfold commands. apply filter_app. Qed.
Lemma commands_none : forall es, Forall (fun e => transmission e = true) es -> commands es = [].
Proof. induction 1 as [|e es H _ IH]; [reflexivity|]. unfold commands. cbn [filter]. rewrite H. exact IH. Qed.
Lemma commands_all : forall es, Forall (fun e => transmission e = false) es -> commands es = es.
Proof. induction 1 as [|e es H _ IH]; [reflexivity|]. unfold commands. cbn [filter]. rewrite H. cbn [negb]. f_equal. exact IH. Qed.

Lemma handler_not_execute : forall os, Forall handler os -> Forall (fun o => o <> OExecute) os.
Proof. intros os H. eapply Forall_impl; [|exact H]. intros o Ho ->. exact Ho. Qed.

Section Torn.
  Context {I : Type} (E : Env I).
  Hypothesis deaf : forall i d, e_hook E i (ETransmitBiDi d) = i.
  Variable p : list Z.
  Implicit Types s : st I.

  Definition near s s' : Prop :=
    mask (rxs s') = mask (rxs s) /\ app s' = app s /\ pending s' = pending s /\
    (tos_deque (r_bidi (rxs s)) = [] -> tos_deque (r_bidi (rxs s')) = []).

  Lemma handlers_near : forall os l s s' s1 es,
    Forall handler os -> no_logon os l -> Rl l s' -> near s s' ->
    run E os s' = Ok (tt, s1, es) -> near s s1 /\ commands es = [].
  Proof.
    induction os as [|o os IH]; intros l s s' s1 es Hh Hn HR Ha H.
    { inversion H; subst. auto. }
    inversion Hh as [|? ? Ho Hos]; subst. destruct Hn as [Hn1 Hn2]. cbn [run] in H.
    apply bind_inv in H. destruct H as (b & s2 & e1 & e2 & H1 & H2 & ->).
    pose proof (step_refines E _ _ _ _ _ _ HR H1) as HR2.
    assert (near s s2 /\ commands e1 = []) as [Ha2 He1].
    { destruct Ha as (A1 & A2 & A3 & A6).
      destruct o as [| | |t| |ds| | |j v]; try contradiction; cbn [step] in H1;
        apply bind_inv in H1; destruct H1 as (u & s3 & e3 & e4 & H1 & Hr & ->); inversion Hr; subst s3 e4; clear Hr;
        rewrite app_nil_r.
      - destruct u.
        destruct (receive_leaves E deaf l s' t s2 e3 HR) as (B1 & B2 & B3 & B4 & B5); [|exact H1|].
        { destruct (completed (OReceive t) l) as [bs|]; [apply Hn1; reflexivity|exact Logic.I]. }
        subst e3. split; [|reflexivity]. unfold near. rewrite B1, B2, B3, B5. repeat split; auto.
      - destruct (leaves_biDi1 E deaf _ _ _ _ H1) as (B1 & B2 & B3 & B4 & B5 & B6).
        split; [|apply commands_none; exact B5]. unfold near. rewrite B1, B3, B4. repeat split; auto.
      - destruct (leaves_biDi2 E deaf _ _ _ _ H1) as (B1 & B2 & B3 & B4 & B5 & B6).
        split; [|apply commands_none; exact B5]. unfold near. rewrite B1, B3, B4. repeat split; auto. }
    destruct (IH _ _ _ _ _ Hos Hn2 HR2 Ha2 H2) as [Ha3 He2].
    split; [exact Ha3|]. rewrite commands_app, He1, He2. reflexivity.
  Qed.

  Lemma handlers_alike : forall os l s s' s1 es,
    Forall handler os -> no_logon os l -> Rl l s' -> alike p s s' ->
    run E os s' = Ok (tt, s1, es) -> alike p s s1 /\ commands es = [].
  Proof.
    intros os l s s' s1 es Hh Hn HR (A1 & A2 & A3 & A4 & A5 & A6) H.
    destruct (handlers_near os l s s' s1 es Hh Hn HR) as ((B1 & B2 & B3 & B4) & He); [repeat split; auto|exact H|].
    split; [|exact He]. repeat split; auto.
    destruct (run_refines E _ _ _ _ _ HR H) as (_ & -> & _). destruct HR as (_ & Hq & _). rewrite Hq in A5.
    rewrite queue_grows by (apply handler_not_execute; exact Hh).
    destruct (l_queue l); [discriminate|exact A5].
  Qed.

  (** [P] does the same with interrupts as without *)
  Definition steady {A} (P : prog (I := I) A) : Prop :=
    forall w l s s' a sn sv s1' es',
    Forall (Forall handler) w -> no_logon sv l -> Rl l s' -> alike p s s' ->
    preempted E P w s' = Ok ((a, sn, sv), s1', es') ->
    Rl (listen_all sv l) s1' /\
    exists s1 es, flat P s = Ok (a, s1, es) /\ alike p s1 s1' /\ commands es' = es.

  Lemma handlers_hd : forall w, Forall (Forall handler) w -> Forall handler (hd [] w).
  Proof. intros [|o w] H; [constructor|]. inversion H; assumption. Qed.
  Lemma handlers_tl : forall w, Forall (Forall handler) w -> Forall (Forall handler) (tl w).
  Proof. intros [|o w] H; [constructor|]. inversion H; assumption. Qed.
  Lemma handlers_skipn : forall n w, Forall (Forall handler) w -> Forall (Forall handler) (skipn n w).
  Proof.
    induction n as [|n IH]; intros w H; [exact H|]. destruct w; [exact H|]. inversion H; subst. apply IH. assumption.
  Qed.

  Lemma steady_acts : forall A (P : prog A), acts (@blind I p) P -> steady P.
  Proof.
    intros A P. induction P as [a|B m k IH]; intros HP w l s s' a' sn sv s1' es' Hw Hn HR Ha H.
    - inversion H; subst. split; [exact HR|]. exists s, []. repeat split; auto; apply Ha.
    - destruct HP as [[Hk Hm] HP]. apply preempted_inv in H.
      destruct H as (s2 & e1 & b & s3 & e2 & a0 & sn1 & sv1 & e3 & H1 & H2 & H3 & Ho & ->).
      injection Ho as -> -> ->. apply no_logon_app in Hn. destruct Hn as [Hn1 Hn2].
      destruct (handlers_alike _ _ _ _ _ _ (handlers_hd w Hw) Hn1 HR Ha H1) as [Ha2 He1].
      pose proof (run_refines E _ _ _ _ _ HR H1) as HR2.
      pose proof (Rl_core _ _ _ (Hk _ _ _ _ H2) HR2) as HR3.
      specialize (Hm _ _ Ha2). rewrite H2 in Hm.
      destruct (m s) as [[[b' s4] e4]|u] eqn:Em; [|contradiction].
      destruct Hm as (-> & -> & Ha3 & Hf).
      destruct (IH b (HP b) _ _ _ _ _ _ _ _ _ (handlers_tl w Hw) Hn2 HR3 Ha3 H3) as (HR4 & s5 & es & H5 & Ha5 & He).
      split; [rewrite listen_all_app; exact HR4|]. exists s5, (e2 ++ es).
      split; [cbn [flat]; unfold bind; rewrite Em, H5; reflexivity|]. split; [exact Ha5|].
      rewrite !commands_app, He1, He, (commands_all e2) by exact Hf. reflexivity.
  Qed.

  Lemma steady_bind : forall A C (P : prog A) (k : A -> prog C),
    steady P -> (forall a, steady (k a)) -> steady (pbind P k).
  Proof.
    intros A C P k HP Hk w l s s' c sn sv s1' es' Hw Hn HR Ha H. apply preempted_pbind in H.
    destruct H as (a & sn1 & sv1 & s1 & e1 & c' & sn2 & sv2 & e2 & H1 & H2 & Ho & ->).
    injection Ho as -> -> ->. apply no_logon_app in Hn. destruct Hn as [Hn1 Hn2].
    destruct (HP _ _ _ _ _ _ _ _ _ Hw Hn1 HR Ha H1) as (HR1 & s2 & es1 & F1 & Ha1 & He1).
    destruct (Hk a _ _ _ _ _ _ _ _ _ (handlers_skipn _ _ Hw) Hn2 HR1 Ha1 H2) as (HR2 & s3 & es2 & F2 & Ha2 & He2).
    split; [rewrite listen_all_app; exact HR2|]. exists s3, (es1 ++ es2).
    split; [rewrite flat_pbind; unfold bind; rewrite F1, F2; reflexivity|]. split; [exact Ha2|].
    rewrite commands_app, He1, He2. reflexivity.
  Qed.
  Lemma steady_Done : forall A (a : A), steady (Done a).
  Proof. intros A a. apply steady_acts. exact Logic.I. Qed.

  (** A part that works on masked fields only *)
  Definition mute (B : Type) (m : M (I := I) B) : Prop :=
    keeps core m /\
    forall s a s1 es, m s = Ok (a, s1, es) ->
    mask (rxs s1) = mask (rxs s) /\ app s1 = app s /\ pending s1 = pending s /\ es = [] /\
    tos_deque (r_bidi (rxs s1)) = tos_deque (r_bidi (rxs s)).
  (** The same without the queue of tip-off search *)
  Definition mute' (B : Type) (m : M (I := I) B) : Prop :=
    keeps core m /\
    forall s a s1 es, m s = Ok (a, s1, es) ->
    mask (rxs s1) = mask (rxs s) /\ app s1 = app s /\ pending s1 = pending s /\ es = [].

  (** [s] need not be empty handed *)
  Lemma mute_run : forall A (P : prog A), acts mute P ->
    forall w l s s' a sn sv s1' es',
    Forall (Forall handler) w -> no_logon sv l -> Rl l s' -> alike p s s' ->
    preempted E P w s' = Ok ((a, sn, sv), s1', es') ->
    Rl (listen_all sv l) s1' /\ alike p s s1' /\ commands es' = [].
  Proof.
    intros A P. induction P as [a|B m k IH]; intros HP w l s s' a' sn sv s1' es' Hw Hn HR Ha H.
    - inversion H; subst. split; [exact HR|]. split; [exact Ha|reflexivity].
    - destruct HP as [[Hk Hm] HP]. apply preempted_inv in H.
      destruct H as (s2 & e1 & b & s3 & e2 & a0 & sn1 & sv1 & e3 & H1 & H2 & H3 & Ho & ->).
      injection Ho as -> -> ->. apply no_logon_app in Hn. destruct Hn as [Hn1 Hn2].
      destruct (handlers_alike _ _ _ _ _ _ (handlers_hd w Hw) Hn1 HR Ha H1) as [Ha2 He1].
      pose proof (run_refines E _ _ _ _ _ HR H1) as HR2.
      pose proof (Hk _ _ _ _ H2) as Hc.
      pose proof (Rl_core _ _ _ Hc HR2) as HR3.
      destruct (Hm _ _ _ _ H2) as (B1 & B2 & B3 & -> & B5).
      assert (Ha3 : alike p s s3).
      { destruct Ha2 as (A1 & A2 & A3 & A4 & A5 & A6). unfold core in Hc. injection Hc as _ Hd _.
        unfold alike. rewrite B1, B2, B3, B5, Hd. repeat split; auto. }
      destruct (IH b (HP b) _ _ _ _ _ _ _ _ _ (handlers_tl w Hw) Hn2 HR3 Ha3 H3) as (HR4 & Ha4 & He).
      split; [rewrite listen_all_app; exact HR4|]. split; [exact Ha4|].
      rewrite !commands_app, He1, He. reflexivity.
  Qed.
  (** Likewise when the undisturbed decoder has a tip-off search answer waiting *)
  Lemma mute_run' : forall A (P : prog A), acts mute' P ->
    forall w l s s' a sn sv s1' es',
    Forall (Forall handler) w -> no_logon sv l -> Rl l s' -> alike p s s' -> tos_deque (r_bidi (rxs s)) <> [] ->
    preempted E P w s' = Ok ((a, sn, sv), s1', es') ->
    Rl (listen_all sv l) s1' /\ alike p s s1' /\ commands es' = [].
  Proof.
    intros A P. induction P as [a|B m k IH]; intros HP w l s s' a' sn sv s1' es' Hw Hn HR Ha Ht H.
    - inversion H; subst. split; [exact HR|]. split; [exact Ha|reflexivity].
    - destruct HP as [[Hk Hm] HP]. apply preempted_inv in H.
      destruct H as (s2 & e1 & b & s3 & e2 & a0 & sn1 & sv1 & e3 & H1 & H2 & H3 & Ho & ->).
      injection Ho as -> -> ->. apply no_logon_app in Hn. destruct Hn as [Hn1 Hn2].
      destruct (handlers_alike _ _ _ _ _ _ (handlers_hd w Hw) Hn1 HR Ha H1) as [Ha2 He1].
      pose proof (run_refines E _ _ _ _ _ HR H1) as HR2.
      pose proof (Hk _ _ _ _ H2) as Hc.
      pose proof (Rl_core _ _ _ Hc HR2) as HR3.
      destruct (Hm _ _ _ _ H2) as (B1 & B2 & B3 & ->).
      assert (Ha3 : alike p s s3).
      { destruct Ha2 as (A1 & A2 & A3 & A4 & A5 & A6). unfold core in Hc. injection Hc as _ Hd _.
        unfold alike. rewrite B1, B2, B3, Hd. repeat split; auto. intro Hx. contradiction. }
      destruct (IH b (HP b) _ _ _ _ _ _ _ _ _ (handlers_tl w Hw) Hn2 HR3 Ha3 Ht H3) as (HR4 & Ha4 & He).
      split; [rewrite listen_all_app; exact HR4|]. split; [exact Ha4|].
      rewrite !commands_app, He1, He. reflexivity.
  Qed.

  Lemma steady_mute : forall (P : prog unit) (m : M unit), acts mute P -> sim p P m ->
    (forall s, exists s1, m s = Ok (tt, s1, []) /\ mask (rxs s1) = mask (rxs s) /\ app s1 = app s /\
       pending s1 = pending s /\ r_deque (rxs s1) = r_deque (rxs s) /\
       tos_deque (r_bidi (rxs s1)) = tos_deque (r_bidi (rxs s))) ->
    steady P.
  Proof.
    intros P m HP Hs Hm w l s s' [] sn sv s1' es' Hw Hn HR Ha H.
    destruct (mute_run _ _ HP _ _ _ _ _ _ _ _ _ Hw Hn HR Ha H) as (HR1 & Ha1 & He).
    split; [exact HR1|]. destruct (Hm s) as (s1 & H1 & M1 & M2 & M3 & M4 & M5).
    exists s1, []. split; [rewrite (Hs s); [exact H1|apply Ha]|]. split; [|exact He].
    destruct Ha1 as (A1 & A2 & A3 & A4 & A5 & A6). unfold alike. rewrite M1, M2, M3, M4, M5. repeat split; auto.
  Qed.

  Ltac mute_leaf :=
    lazymatch goal with
    | |- mute _ (gets _) => split; [intros ? ? ? ? H; inversion H; reflexivity|intros ? ? ? ? H; inversion H; subst; repeat split]
    | |- mute _ (modify _) => split; [apply keeps_modify; reflexivity|intros ? ? ? ? H; inversion H; subst; repeat split]
    | |- mute _ (fail _) => split; [apply keeps_fail|intros ? ? ? ? H; discriminate]
    | |- mute' _ (gets _) => split; [intros ? ? ? ? H; inversion H; reflexivity|intros ? ? ? ? H; inversion H; subst; repeat split]
    | |- mute' _ (modify _) => split; [apply keeps_modify; reflexivity|intros ? ? ? ? H; inversion H; subst; repeat split]
    | |- mute' _ (fail _) => split; [apply keeps_fail|intros ? ? ? ? H; discriminate]
    end.

  Lemma steady_adr : steady adrP.
  Proof.
    apply (steady_mute _ adr); [acts_tac; mute_leaf|apply sim_adr|].
    intros s. unfold adr. 
    assert (Hp : forall a, exists s1,
      bind (lift (adrHigh (rxs s) a)) (fun hi => bind (lift (adrLow (rxs s) a)) (fun lo =>
        modify (set_adr_deque (adr_deque (r_bidi (rxs s)) ++ [hi; lo])))) s = Ok (tt, s1, []) /\
      mask (rxs s1) = mask (rxs s) /\ app s1 = app s /\ pending s1 = pending s /\
      r_deque (rxs s1) = r_deque (rxs s) /\ tos_deque (r_bidi (rxs s1)) = tos_deque (r_bidi (rxs s))).
    { intros a. destruct (adrHigh_ok (rxs s) a) as (x & -> & _). destruct (adrLow_ok (rxs s) a) as (y & -> & _).
      eexists. split; [reflexivity|]. repeat split. }
    assert (Hr : exists s1, ret (I := I) tt s = Ok (tt, s1, []) /\
      mask (rxs s1) = mask (rxs s) /\ app s1 = app s /\ pending s1 = pending s /\
      r_deque (rxs s1) = r_deque (rxs s) /\ tos_deque (r_bidi (rxs s1)) = tos_deque (r_bidi (rxs s))).
    { eexists. split; [reflexivity|]. repeat split. }
    rewrite bind_get. cbv zeta.
    destruct (_ || _); [exact Hr|]. destruct (negb _); [apply Hp|].
    destruct (aval _ =? 0); [apply Hp|]. destruct (_ && _); [apply Hp|exact Hr].
  Qed.
  Lemma steady_qos : steady updateQosP.
  Proof.
    apply (steady_mute _ updateQos); [acts_tac; mute_leaf|apply sim_updateQos|].
    intros s. unfold updateQos. rewrite bind_get. cbv zeta. destruct (_ <? _).
    - eexists. split; [reflexivity|]. repeat split.
    - eexists. split; [reflexivity|]. repeat split.
  Qed.

  (** tipOffSearch() behind the test of the backoff *)
  Definition searchP : prog (I := I) unit :=
    pbind (rd (fun r => negb (length (tos_deque (r_bidi r)) =? 0)%nat)) (fun full : bool =>
    if full then Done tt
    else
      pbind (rd (fun r => last_packet_tp (r_time r))) (fun l =>
      pbind (rd (fun r => tos_tp (r_time r))) (fun t =>
      let sec := Z.quot (l - t) 1000000000 in
      if 30 <=? sec then Done tt
      else
        pbind (rd (fun r => adrHigh r (primary (r_addrs r)))) (fun h => pbind (local h) (fun hi =>
        pbind (rd (fun r => adrLow r (primary (r_addrs r)))) (fun l => pbind (local l) (fun lo =>
        pbind (local (rbind (Datagram.make_datagram_id Datagram.B12 14 (u32 sec)) Datagram.encode_datagram)) (fun tm =>
        wr (fun r => set_tos_deque (tos_deque (r_bidi r) ++ [hi ++ lo ++ tm]) r))))))))).
  Lemma steady_search : steady searchP.
  Proof.
    unfold searchP.
    match goal with |- steady (pbind (rd ?f) (fun full : bool => if full then _ else ?P)) => set (rest := P) end.
    assert (H1 : acts (@blind I p) rest).
    { unfold rest. repeat acts1; try blind_leaf.
      all: try (apply blind_gets; intros r r' Hm;
                assert (Hp : primary (r_addrs r') = primary (r_addrs r)) by masked;
                assert (Hc : consist (r_addrs r') = consist (r_addrs r)) by masked;
                unfold adrHigh, adrLow; rewrite Hp, Hc; reflexivity).
      intros r r' _ Hx. destruct (tos_deque (r_bidi r)); discriminate. }
    assert (H2 : acts mute' rest).
    { unfold rest. repeat acts1; mute_leaf. }
    clearbody rest.
    intros w l s s' [] sn sv s1' es' Hw Hn HR Ha H. unfold rd, act in *. cbn [pbind] in *.
    apply preempted_inv in H.
    destruct H as (s2 & e1 & b & s3 & e2 & a0 & sn1 & sv1 & e3 & F1 & F2 & F3 & Ho & ->).
    injection Ho as -> -> ->. apply no_logon_app in Hn. destruct Hn as [Hn1 Hn2].
    destruct (handlers_alike _ _ _ _ _ _ (handlers_hd w Hw) Hn1 HR Ha F1) as [Ha2 He1].
    pose proof (run_refines E _ _ _ _ _ HR F1) as HR2.
    inversion F2; subst b s3 e2; clear F2.
    cbn [flat]. unfold bind at 1, gets at 1. cbn iota beta.
    rewrite listen_all_app, !commands_app, He1. cbn [List.app commands filter].
    destruct (tos_deque (r_bidi (rxs s))) as [|d q] eqn:Et.
    - assert (Ht2 : tos_deque (r_bidi (rxs s2)) = []) by (destruct Ha2 as (_ & _ & _ & _ & _ & Hx); apply Hx, Et).
      rewrite Ht2 in F3. cbn [length Nat.eqb negb] in F3 |- *.
      destruct (steady_acts _ _ H1 _ _ _ _ _ _ _ _ _ (handlers_tl w Hw) Hn2 HR2 Ha2 F3) as (HR4 & s5 & es & H5 & Ha5 & He).
      split; [exact HR4|]. exists s5, es. rewrite H5. split; [reflexivity|]. split; [exact Ha5|exact He].
    - cbn [length Nat.eqb negb flat ret]. 
      destruct (negb (length (tos_deque (r_bidi (rxs s2))) =? 0)%nat).
      + inversion F3; subst. split; [exact HR2|]. exists s, []. split; [reflexivity|]. split; [exact Ha2|reflexivity].
      + destruct (mute_run' _ _ H2 _ _ _ _ _ _ _ _ _ (handlers_tl w Hw) Hn2 HR2 Ha2 ltac:(rewrite Et; discriminate) F3) as (HR4 & Ha4 & He).
        split; [exact HR4|]. exists s, []. split; [reflexivity|]. split; [exact Ha4|exact He].
  Qed.
  Lemma steady_tipOff : steady (tipOffSearchP E).
  Proof.
    unfold tipOffSearchP. apply steady_bind; [apply steady_acts, b_tos_test|]. intros [].
    { cbn [pbind]. apply steady_Done. }
    apply steady_search.
  Qed.

  Ltac steady1 :=
    lazymatch goal with
    | |- steady (pbind _ _) => apply steady_bind; [|intro]
    | |- steady (Done _) => apply steady_Done
    | |- steady (if ?b then _ else _) => destruct b
    | |- steady (match ?x with _ => _ end) => destruct x
    | |- steady (let _ := _ in _) => cbv zeta
    | |- steady (act _) => apply steady_acts, acts_act; blind_leaf
    | |- steady (tipOffSearchP _) => apply steady_tipOff
    | |- steady (cvLongP _ _ _) => apply steady_acts, b_cvLong
    | |- steady (cvShortP _ _ _) => apply steady_acts, b_cvShort
    | |- steady (registerModeP _ _) => apply steady_acts, b_registerMode
    | |- steady (serviceModeP _ _) => apply steady_acts, b_serviceMode
    | |- steady (consistControlP _ _) => apply steady_acts, b_consistControl
    | |- steady (advancedOperationsP _ _ _) => apply steady_acts, b_advanced
    | |- steady (speedAndDirectionP _ _ _) => apply steady_acts, b_speed
    | |- steady (functionGroupP _ _ _) => apply steady_acts, b_function
    | |- steady ?P => let h := head_of P in unfold h
    end.
  Lemma steady_service : steady (executeServiceP E).
  Proof. repeat steady1. Qed.
  Lemma steady_operations : steady (executeOperationsP E).
  Proof.
    assert (Hi : forall a o, steady (instructP E a o)) by (intros; repeat steady1).
    unfold executeOperationsP. apply steady_bind; [apply steady_acts, acts_act, blind_front_address|intro a].
    assert (Hd : forall a o, steady (executeOperationsAddressedP E a o)).
    { intros b o. unfold executeOperationsAddressedP.
      repeat lazymatch goal with |- steady (instructP _ _ _) => apply Hi | _ => steady1 end. }
    destruct (atyp a); try apply steady_Done; apply Hd.
  Qed.
  Lemma steady_handle : steady (handleP E).
  Proof.
    unfold handleP.
    apply steady_bind; [apply steady_adr|intros _].
    apply steady_bind; [apply steady_acts, b_store|intros _].
    apply steady_bind; [apply steady_qos|intros _].
    apply steady_bind; [apply steady_acts, b_times|intros _].
    apply steady_bind; [apply steady_acts, acts_act, blind_gets; masked|intros []].
    - apply steady_service.
    - apply steady_operations.
  Qed.
End Torn.

Lemma handlers_interrupting : forall w, Forall (Forall handler) w -> interrupting w.
Proof. intros w H. eapply Forall_impl; [|exact H]. exact handler_not_execute. Qed.

Lemma same_of_mask : forall (I : Type) (s s' : st I),
  mask (rxs s') = mask (rxs s) -> app s' = app s -> pending s' = pending s -> same_decoder s s'.
Proof.
  intros I s s' Hm Ha Hp. unfold mask in Hm. injection Hm. intros. constructor; try assumption; split; assumption.
Qed.

Section Undisturbed.
  Context {I : Type} (E : Env I).
  Hypothesis deaf : forall i d, e_hook E i (ETransmitBiDi d) = i.
  Implicit Types s : st I.

  Lemma torn_same : forall w l s o s' es,
    Forall (Forall handler) w -> Rl l s -> no_logon (served o) l ->
    preempted E (executeP E) w s = Ok (o, s', es) ->
    match worked_on o with
    | Some p => exists s1, execute E (only p s) = Ok (told o, s1, commands es) /\ same_decoder s1 s'
    | None => told o = false /\ same_decoder s s' /\ commands es = []
    end.
  Proof.
    intros w l s o s' es Hw HR Hn H. unfold executeP in H. unfold rd at 1, act at 1 in H. cbn [pbind] in H.
    apply preempted_inv in H.
    destruct H as (s1 & e1 & pe & s2 & e2 & a & sn & sv & e3 & H1 & H2 & H3 & -> & ->).
    inversion H2; subst pe s2 e2; clear H2.
    unfold served in Hn. cbn [snd] in Hn. apply no_logon_app in Hn. destruct Hn as [Hn1 Hn].
    pose proof (handlers_hd w Hw) as Hh. pose proof (handlers_tl w Hw) as Ht.
    pose proof (run_refines E _ _ _ _ _ HR H1) as HR1.
    assert (N0 : near s s) by (repeat split; auto).
    destruct (handlers_near E deaf _ _ _ _ _ _ Hh Hn1 HR N0 H1) as [N1 C1].
    destruct (f_packet_end (r_fsm (rxs s1))) eqn:Epe.
    { inversion H3; subst. unfold worked_on, seen, told. cbn [fst snd skipn].
      rewrite !commands_app, C1. split; [reflexivity|]. split; [|reflexivity].
      destruct N1 as (A1 & A2 & A3 & _). apply same_of_mask; assumption. }
    unfold rd at 1, act at 1 in H3. cbn [pbind] in H3. apply preempted_inv in H3.
    destruct H3 as (s3 & e4 & em & s4 & e5 & a1 & sn1 & sv1 & e6 & H4 & H5 & H6 & Ho & ->).
    injection Ho as -> -> ->. inversion H5; subst em s4 e5; clear H5.
    apply no_logon_app in Hn. destruct Hn as [Hn2 Hn].
    pose proof (handlers_hd _ Ht) as Hh2. pose proof (handlers_tl _ Ht) as Ht2.
    pose proof (run_refines E _ _ _ _ _ HR1 H4) as HR3.
    destruct (handlers_near E deaf _ _ _ _ _ _ Hh2 Hn2 HR1 N1 H4) as [N3 C3].
    destruct (length (r_deque (rxs s3)) =? 0)%nat eqn:Ee.
    { inversion H6; subst. unfold worked_on, seen, told. cbn [fst snd skipn].
      rewrite !commands_app, C1, C3. split; [reflexivity|]. split; [|reflexivity].
      destruct N3 as (A1 & A2 & A3 & _). apply same_of_mask; assumption. }
    destruct (r_deque (rxs s3)) as [|p q] eqn:Ed; [discriminate|].
    apply preempted_pbind in H6.
    destruct H6 as (b & sn2 & sv2 & s5 & e7 & c & sn3 & sv3 & e8 & H7 & H8 & Ho & ->).
    injection Ho as -> -> ->. apply no_logon_app in Hn. destruct Hn as [Hn5 Hn6].
    assert (A3 : alike p (only p s) s3).
    { destruct N3 as (B1 & B2 & B3 & B4). unfold alike. rewrite Ed. repeat split; auto. }
    destruct (steady_handle E deaf p _ _ _ _ _ _ _ _ _ Ht2 Hn5 HR3 A3 H7) as (HR5 & s5f & e7f & F5 & A5 & C7).
    unfold act in H8. cbn [pbind] in H8. apply preempted_inv in H8.
    pose proof (handlers_skipn (length sn2) _ Ht2) as Ht3.
    destruct H8 as (s6 & e9 & u & s7 & e10 & a2 & sn4 & sv4 & e11 & H9 & H10 & H11 & Ho & ->).
    injection Ho as -> -> ->. inversion H11; subst; clear H11.
    pose proof (handlers_hd _ Ht3) as Hh3. apply no_logon_app in Hn6. destruct Hn6 as [Hn6 _].
    destruct (handlers_alike E deaf p _ _ _ _ _ _ Hh3 Hn6 HR5 A5 H9) as [A6 C9].
    match goal with |- match worked_on ?o with _ => _ end => assert (Hsn : worked_on o = Some p) end.
    { unfold worked_on, seen. cbn [fst snd skipn].
      destruct sn2 as [|d sn2']; [cbn [List.app]; apply A6|]. cbn [List.app].
      assert (Hq3 : hd_error (l_queue (listen_all (hd [] (tl w)) (listen_all (hd [] w) l))) = Some p).
      { destruct HR3 as (_ & <- & _). rewrite Ed. reflexivity. }
      destruct (preempted_core E _ _ (core_handle E) _ _ _ _ _ _ _ _ _
                  (handlers_interrupting _ Ht2) HR3 Hq3 H7) as (_ & Hs2 & _).
      inversion Hs2; subst. assumption. }
    rewrite Hsn. unfold told. cbn [fst].
    destruct A6 as (M1 & M2 & M3 & M4 & M5 & M6).
    rewrite <- flat_execute. unfold executeP. unfold rd at 1, act at 1. cbn [pbind flat].
    unfold bind at 1, gets at 1. cbn [only rxs r_fsm set_f_packet_end set_r_fsm f_packet_end upd_f_packet_end flat].
    unfold rd at 1, act at 1. cbn [pbind flat].
    unfold bind at 1, gets at 1. cbn [only rxs r_deque set_f_packet_end set_r_fsm set_r_deque length Nat.eqb flat].
    rewrite flat_pbind. unfold bind at 1. change (Mk_st _ (app s) (pending s)) with (only p s). rewrite F5.
    unfold act. cbn [pbind flat]. unfold popFront in *. rewrite bind_get in H10.
    unfold bind, get, modify, ret in *.
    destruct (r_deque (rxs s5f)) as [|p1 q1]; [discriminate|]. destruct (r_deque (rxs s6)) as [|p2 q2]; [discriminate|].
    inversion H10; subst; clear H10.
    eexists. split.
    - rewrite !commands_app, C1, C3, C9. cbn [List.app commands filter]. rewrite !app_nil_r. reflexivity.
    - apply same_of_mask; assumption.
  Qed.

  Lemma session_listened : forall ts l s outs s' es,
    Forall (fun t => interrupting (snd t)) ts -> Rl l s -> session E ts s = Ok (outs, s', es) ->
    Rl (all_listened ts outs l) s'.
  Proof.
    induction ts as [|[os w] ts IH]; intros l s outs s' es Hi HR H.
    - inversion H; subst. exact HR.
    - inversion Hi as [|? ? Hw Hts]; subst. cbn [snd] in Hw. cbn [session] in H.
      apply bind_inv in H. destruct H as ([] & s1 & e1 & f1 & H1 & H & ->).
      apply bind_inv in H. destruct H as (o & s2 & e2 & f2 & H2 & H & ->).
      apply bind_inv in H. destruct H as (x & s3 & e3 & f3 & H3 & H & ->).
      inversion H; subst; clear H.
      pose proof (run_refines E _ _ _ _ _ HR H1) as HR1.
      destruct (torn_execute E _ _ _ _ _ _ Hw HR1 H2) as (_ & _ & HR2 & _).
      exact (IH _ _ _ _ _ Hts HR2 H3).
  Qed.

  Theorem undisturbed : forall ts i outs s0 e0 os s e1 w o s' es,
    Forall (fun t => interrupting (snd t)) ts -> session E ts (st0 i) = Ok (outs, s0, e0) ->
    run E os s0 = Ok (tt, s, e1) ->
    Forall (Forall handler) w -> no_logon (served o) (listen_all os (all_listened ts outs listener0)) ->
    preempted E (executeP E) w s = Ok (o, s', es) ->
    match worked_on o with
    | Some p => exists s1, execute E (only p s) = Ok (told o, s1, commands es) /\ same_decoder s1 s'
    | None => told o = false /\ same_decoder s s' /\ commands es = []
    end.
  Proof.
    intros ts i outs s0 e0 os s e1 w o s' es Hi Hs Hr Hw Hn H.
    pose proof (session_listened _ _ _ _ _ _ Hi (Rl0 i) Hs) as HR0.
    pose proof (run_refines E _ _ _ _ _ HR0 Hr) as HR.
    exact (torn_same _ _ _ _ _ _ Hw HR Hn H).
  Qed.
End Undisturbed.
