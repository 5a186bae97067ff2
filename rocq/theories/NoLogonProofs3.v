(** A main loop of a decoder without automatic logon, interrupted in every call. *)
From Verif Require Import Prelude Address SpecCodec RxState Rx RxLogic SpecRx RxBitProofs RxBitProofs4
  SpecExec ExecProofs SpecConf ConfProofs SpecCv SpecLayout LayoutProofs LayoutProofs2 LayoutProofs3 LayoutProofs4
  Preempt PreemptData SpecPreempt PreemptProofs PreemptProofs2 PreemptProofs3 PreemptProofs4 SpecTorn TornProofs PreemptLoop SpecLoop LoopProofs
  StoredProofs4 SpecWhole WholeProofs SpecNoLogon NoLogonProofs NoLogonProofs2.

Section Off.
  Context {I : Type} (E : Env I) (Hno : never_logs_on E).
  Hypothesis deaf : forall i d, e_hook E i (ETransmitBiDi d) = i.
  Implicit Types s : st I.

  Lemma torn_off : forall w l s o s' es,
    Forall (Forall handler) w -> Rl l s -> logon_off s ->
    preempted E (executeP E) w s = Ok (o, s', es) ->
    match worked_on o with
    | Some p => exists s1, execute E (only p s) = Ok (told o, s1, commands es) /\ same_decoder s1 s'
    | None => told o = false /\ same_decoder s s' /\ commands es = []
    end.
  Proof.
    intros w l s o s' es Hw HR Hn H. unfold executeP in H. unfold rd at 1, act at 1 in H. cbn [pbind] in H.
    apply preempted_inv in H.
    destruct H as (s1 & e1 & pe & s2 & e2 & a & sn & sv & e3 & H1 & H2 & H3 & -> & ->).
    inversion H2; subst pe s2 e2; clear H2.
    pose proof (handlers_hd w Hw) as Hh. pose proof (handlers_tl w Hw) as Ht.
    pose proof (run_refines E _ _ _ _ _ HR H1) as HR1.
    assert (N0 : near s s) by (repeat split; auto).
    destruct (handlers_ignore E deaf _ _ _ _ _ _ Hh Hn HR N0 H1) as [N1 C1].
    pose proof (off_mask _ _ (proj1 N1) Hn) as Hn1.
    destruct (f_packet_end (r_fsm (rxs s1))) eqn:Epe.
    { inversion H3; subst. unfold worked_on, seen, told. cbn [fst snd skipn].
      rewrite !commands_app, C1. split; [reflexivity|]. split; [|reflexivity].
      destruct N1 as (A1 & A2 & A3 & _). apply same_of_mask; assumption. }
    unfold rd at 1, act at 1 in H3. cbn [pbind] in H3. apply preempted_inv in H3.
    destruct H3 as (s3 & e4 & em & s4 & e5 & a1 & sn1 & sv1 & e6 & H4 & H5 & H6 & Ho & ->).
    injection Ho as -> -> ->. inversion H5; subst em s4 e5; clear H5.
    pose proof (handlers_hd _ Ht) as Hh2. pose proof (handlers_tl _ Ht) as Ht2.
    pose proof (run_refines E _ _ _ _ _ HR1 H4) as HR3.
    destruct (handlers_ignore E deaf _ _ _ _ _ _ Hh2 Hn1 HR1 N1 H4) as [N3 C3].
    pose proof (off_mask _ _ (proj1 N3) Hn) as Hn3.
    destruct (length (r_deque (rxs s3)) =? 0)%nat eqn:Ee.
    { inversion H6; subst. unfold worked_on, seen, told. cbn [fst snd skipn].
      rewrite !commands_app, C1, C3. split; [reflexivity|]. split; [|reflexivity].
      destruct N3 as (A1 & A2 & A3 & _). apply same_of_mask; assumption. }
    destruct (r_deque (rxs s3)) as [|p q] eqn:Ed; [discriminate|].
    apply preempted_pbind in H6.
    destruct H6 as (b & sn2 & sv2 & s5 & e7 & c & sn3 & sv3 & e8 & H7 & H8 & Ho & ->).
    injection Ho as -> -> ->.
    assert (A3 : alike p (only p s) s3).
    { destruct N3 as (B1 & B2 & B3 & B4). unfold alike. rewrite Ed. repeat split; auto. }
    destruct (steady_handle E Hno deaf p _ _ _ _ _ _ _ _ _ Ht2 Hn3 HR3 A3 H7) as (HR5 & Hn5 & s5f & e7f & F5 & A5 & C7).
    unfold act in H8. cbn [pbind] in H8. apply preempted_inv in H8.
    pose proof (handlers_skipn (length sn2) _ Ht2) as Ht3.
    destruct H8 as (s6 & e9 & u & s7 & e10 & a2 & sn4 & sv4 & e11 & H9 & H10 & H11 & Ho & ->).
    injection Ho as -> -> ->. inversion H11; subst; clear H11.
    pose proof (handlers_hd _ Ht3) as Hh3.
    destruct (handlers_alike E deaf p _ _ _ _ _ _ Hh3 Hn5 HR5 A5 H9) as [A6 C9].
    match goal with |- match worked_on ?o with _ => _ end => assert (Hsn : worked_on o = Some p) end.
    { unfold worked_on, seen. cbn [fst snd skipn].
      destruct sn2 as [|d sn2']; [cbn [List.app]; apply A6|]. cbn [List.app].
      assert (Hq3 : hd_error (l_queue (listen_all (hd [] (tl w)) (listen_all (hd [] w) l))) = Some p).
      { destruct HR3 as (_ & <- & _). rewrite Ed. reflexivity. }
      destruct (preempted_core E _ _ (core_handle E) _ _ _ _ _ _ _ _ _
                  (handlers_interrupting _ Ht2) HR3 Hq3 H7) as (_ & Hs2 & _).
      inversion Hs2; subst. assumption. }
    rewrite Hsn. unfold told. cbn [fst].
    destruct A6 as (M1 & M2 & M3 & M4 & M5 & M6).
    rewrite <- flat_execute. unfold executeP. unfold rd at 1, act at 1. cbn [pbind flat].
    unfold bind at 1, gets at 1. cbn [only rxs r_fsm set_f_packet_end set_r_fsm f_packet_end upd_f_packet_end flat].
    unfold rd at 1, act at 1. cbn [pbind flat].
    unfold bind at 1, gets at 1. cbn [only rxs r_deque set_f_packet_end set_r_fsm set_r_deque length Nat.eqb flat].
    rewrite flat_pbind. unfold bind at 1. change (Mk_st _ (app s) (pending s)) with (only p s). rewrite F5.
    unfold act. cbn [pbind flat]. unfold popFront in *. rewrite bind_get in H10.
    unfold bind, get, modify, ret in *.
    destruct (r_deque (rxs s5f)) as [|p1 q1]; [discriminate|]. destruct (r_deque (rxs s6)) as [|p2 q2]; [discriminate|].
    inversion H10; subst; clear H10.
    eexists. split.
    - rewrite !commands_app, C1, C3, C9. cbn [List.app commands filter]. rewrite !app_nil_r. reflexivity.
    - apply same_of_mask; assumption.
  Qed.


  (** init() and the callbacks *)
  Lemma free_off : forall A (P : prog A), acts (@free I) P -> safe P -> forall w l s s' a sn sv s1' es',
    Forall (Forall handler) w -> logon_off s' -> Rl l s' -> near s s' -> preempted E P w s' = Ok ((a, sn, sv), s1', es') ->
    exists s1 es, flat P s = Ok (a, s1, es) /\ near s1 s1' /\ commands es' = es.
  Proof.
    intros A P. induction P as [a|B m k IH]; intros HP HS w l s s' a' sn sv s1' es' Hw Hn HR Ha H.
    - inversion H; subst. exists s, []. repeat split; auto; apply Ha.
    - destruct HP as [[Hk Hm] HP]. destruct HS as [HS1 HS2]. apply preempted_inv in H.
      destruct H as (s2 & e1 & b & s3 & e2 & a0 & sn1 & sv1 & e3 & H1 & H2 & H3 & Ho & ->).
      injection Ho as -> -> ->.
      destruct (handlers_ignore E deaf _ _ _ _ _ _ (handlers_hd w Hw) Hn HR Ha H1) as [Ha2 He1].
      pose proof (run_refines E _ _ _ _ _ HR H1) as HR2.
      pose proof (Rl_core _ _ _ (Hk _ _ _ _ H2) HR2) as HR3.
      assert (Hn3 : logon_off s3).
      { refine (HS1 _ _ _ _ H2 _). apply (off_mask s s2 (proj1 Ha2)), (off_mask s' s); [symmetry; exact (proj1 Ha)|exact Hn]. }
      specialize (Hm _ _ Ha2). rewrite H2 in Hm.
      destruct (m s) as [[[b' s4] e4]|u] eqn:Em; [|contradiction].
      destruct Hm as (-> & -> & Ha3 & Hf).
      destruct (IH b (HP b) (HS2 b (ex_intro _ s2 (ex_intro _ s3 (ex_intro _ e2 H2)))) _ _ _ _ _ _ _ _ _ (handlers_tl w Hw) Hn3 HR3 Ha3 H3) as (s5 & es & H5 & Ha5 & He).
      exists s5, (e2 ++ es). split; [cbn [flat]; unfold bind; rewrite Em, H5; reflexivity|]. split; [exact Ha5|].
      rewrite !commands_app, He1, He, (commands_all e2) by exact Hf. reflexivity.
  Qed.
  Lemma task_off : forall t w l s o s' es, t = TInit \/ (exists i v, t = TCallback i v) -> Forall (Forall handler) w -> logon_off s -> Rl l s ->
    preempted E (taskP E t) w s = Ok (o, s', es) -> exists s1, step E (call_of t) s = Ok (told o, s1, commands es) /\ same_decoder s1 s'.
  Proof.
    intros t w l s [[a sn] sv] s' es Ht Hw Hn HR H. assert (Hf : acts (@free I) (taskP E t) /\ safe (taskP E t)).
    { destruct Ht as [-> |(i & v & ->)]; cbn [taskP]; (split; [apply acts_pbind; [|intro; exact Logic.I]|apply safe_pbind; [|intro; exact Logic.I]]).
      - apply free_init.
      - apply safe_init. exact Hno.
      - unfold callbackP. apply acts_pbind; [apply acts_act, (free_pending _ (fun ps => nth_error ps i))|]. intros [c|]; [apply free_run_cb|exact Logic.I].
      - apply safe_callback. }
    destruct Hf as [Hf Hs].
    destruct (free_off _ _ Hf Hs _ _ _ _ _ _ _ _ _ Hw Hn HR (near_refl s) H) as (s1 & es1 & H1 & H2 & <-). rewrite flat_task in H1.
    exists s1. split; [exact H1|exact (same_near _ _ H2)].
  Qed.

  (** datagram() *)
  Lemma bland_off : forall A (P : prog A), acts (@bland I) P -> forall w l s a sn sv s' es, Forall (Forall handler) w -> logon_off s -> Rl l s ->
    preempted E P w s = Ok ((a, sn, sv), s', es) -> near s s' /\ commands es = [].
  Proof.
    intros A P. induction P as [a|B m k IH]; intros HP w l s a' sn sv s' es Hw Hn HR H.
    - inversion H; subst. split; [apply near_refl|reflexivity].
    - destruct HP as [[Hk Hm] HP]. apply preempted_inv in H.
      destruct H as (s2 & e1 & b & s3 & e2 & a0 & sn1 & sv1 & e3 & H1 & H2 & H3 & Ho & ->).
      injection Ho as -> -> ->.
      destruct (handlers_ignore E deaf _ _ _ _ _ _ (handlers_hd w Hw) Hn HR (near_refl s) H1) as [Ha2 He1].
      pose proof (run_refines E _ _ _ _ _ HR H1) as HR2. pose proof (Rl_core _ _ _ (Hk _ _ _ _ H2) HR2) as HR3.
      destruct (Hm _ _ _ _ H2) as [N3 ->]. pose proof (off_mask _ _ (proj1 (near_trans _ _ _ Ha2 N3)) Hn) as Hn3.
      destruct (IH b (HP b) _ _ _ _ _ _ _ _ (handlers_tl w Hw) Hn3 HR3 H3) as [N4 C4].
      split; [exact (near_trans _ _ _ (near_trans _ _ _ Ha2 N3) N4)|]. rewrite !commands_app, He1, C4. reflexivity.
  Qed.
  Lemma datagram_off : forall ds w l s o s' es, Forall (Forall handler) w -> logon_off s -> Rl l s ->
    preempted E (taskP E (TDatagram ds)) w s = Ok (o, s', es) -> same_decoder s s' /\ commands es = [].
  Proof.
    intros ds w l s [[a sn] sv] s' es Hw Hn HR H. destruct (bland_off _ _ (bland_datagram E ds) _ _ _ _ _ _ _ _ Hw Hn HR H) as [N C]. split; [exact (same_near _ _ N)|exact C].
  Qed.
  Lemma same_off : forall s s', same_decoder s s' -> logon_off s -> logon_off s'.
  Proof. intros s s' [S1 S2 S3 S4 S5 S6 S7 S8 S9 S10 S11 S12 S13 S14] H. unfold logon_off in *. congruence. Qed.

  Lemma bland_flat : forall A (P : prog A), acts (@bland I) P -> forall s a s' es, flat P s = Ok (a, s', es) -> near s s'.
  Proof.
    intros A P. induction P as [a|B m k IH]; intros HP s a' s' es H; [inversion H; subst; apply near_refl|].
    destruct HP as [[_ Hm] HP]. cbn [flat] in H. apply bind_inv in H. destruct H as (b & s1 & e1 & e2 & H1 & H2 & ->).
    exact (near_trans _ _ _ (proj1 (Hm _ _ _ _ H1)) (IH b (HP b) _ _ _ _ H2)).
  Qed.

  (** No call turns it on *)
  Lemma off_step : forall o s b s' es, logon_off s -> step E o s = Ok (b, s', es) -> logon_off s'.
  Proof.
    intros o s b s' es Ho H.
    assert (K : forall t, safe (taskP E t) -> step E (call_of t) s = Ok (b, s', es) -> logon_off s').
    { intros t Hs Ht. rewrite <- flat_task in Ht. exact (off_flat _ _ _ _ _ _ Hs Ho Ht). }
    destruct o as [| | |t| |ds| | |j v].
    - apply (K TInit); [|exact H]. cbn [taskP]. apply safe_pbind; [apply safe_init; exact Hno|intro; exact Logic.I].
    - cbn [step] in H. apply bind_inv in H. destruct H as (u & s3 & e3 & e4 & H & Hr & ->). inversion Hr; subst.
      unfold enable in H. rewrite bind_get in H. destruct (enabled_flag (r_cv (rxs s))); inversion H; subst; exact Ho.
    - cbn [step] in H. apply bind_inv in H. destruct H as (u & s3 & e3 & e4 & H & Hr & ->). inversion Hr; subst.
      unfold disable, reset in H. rewrite bind_get in H. destruct (negb (enabled_flag (r_cv (rxs s)))); inversion H; subst; exact Ho.
    - cbn [step] in H. apply bind_inv in H. destruct H as (u & s3 & e3 & e4 & H & Hr & ->). inversion Hr; subst.
      exact (off_mask _ _ (proj1 (ignores_receive E t _ _ _ _ Ho H)) Ho).
    - apply (K TExecute); [|exact H]. cbn [taskP]. apply safe_execute. exact Hno.
    - change (ODatagram ds) with (call_of (TDatagram ds)) in H. rewrite <- flat_task in H.
      exact (off_mask _ _ (proj1 (bland_flat _ _ (bland_datagram E ds) _ _ _ _ H)) Ho).
    - cbn [step] in H. apply bind_inv in H. destruct H as (u & s3 & e3 & e4 & H & Hr & ->). inversion Hr; subst.
      exact (off_mask _ _ (proj1 (leaves_biDi1 E deaf _ _ _ _ H)) Ho).
    - cbn [step] in H. apply bind_inv in H. destruct H as (u & s3 & e3 & e4 & H & Hr & ->). inversion Hr; subst.
      exact (off_mask _ _ (proj1 (leaves_biDi2 E deaf _ _ _ _ H)) Ho).
    - apply (K (TCallback j v)); [|exact H]. cbn [taskP]. apply safe_pbind; [apply safe_callback|intro; exact Logic.I].
  Qed.
  Lemma off_run : forall os s s' es, logon_off s -> run E os s = Ok (tt, s', es) -> logon_off s'.
  Proof.
    induction os as [|o os IH]; intros s s' es Ho H; [inversion H; subst; exact Ho|].
    cbn [run] in H. apply bind_inv in H. destruct H as (b & s1 & e1 & e2 & H1 & H2 & ->). exact (IH _ _ _ (off_step _ _ _ _ _ Ho H1) H2).
  Qed.
  Lemma off_preempted : forall A (P : prog A), safe P -> forall w s o s' es, logon_off s -> preempted E P w s = Ok (o, s', es) -> logon_off s'.
  Proof.
    intros A P. induction P as [a|B m k IH]; intros HS w s o s' es Ho H; [inversion H; subst; exact Ho|].
    destruct HS as [HS1 HS2]. apply preempted_inv in H.
    destruct H as (s2 & e1 & b & s3 & e2 & a0 & sn1 & sv1 & e3 & H1 & H2 & H3 & _ & _).
    exact (IH b (HS2 b (ex_intro _ s2 (ex_intro _ s3 (ex_intro _ e2 H2)))) _ _ _ _ _ (HS1 _ _ _ _ H2 (off_run _ _ _ _ Ho H1)) H3).
  Qed.
  Lemma off_loop : forall ts l s outs s' es, Forall (fun t => Forall (Forall handler) (snd t)) ts -> logon_off s -> Rl l s ->
    mainloop E ts s = Ok (outs, s', es) -> logon_off s'.
  Proof.
    induction ts as [|[[os t] w] ts IH]; intros l s outs s' es Hts Ho HR H; [inversion H; subst; exact Ho|].
    apply Forall_cons_iff in Hts. destruct Hts as [Hw Hts]. cbn [snd] in Hw.
    pose proof H as H0. cbn [mainloop] in H. apply bind_inv in H. destruct H as ([] & s1 & e1 & f1 & H1 & H & ->).
    apply bind_inv in H. destruct H as (o & s2 & e2 & f2 & H2 & H & ->).
    apply bind_inv in H. destruct H as (y & s3 & e3 & f3 & H3 & H & ->). inversion H; subst.
    pose proof (off_run _ _ _ _ Ho H1) as O1. pose proof (run_refines E _ _ _ _ _ HR H1) as HR1.
    assert (O2 : logon_off s2).
    { destruct t as [| |ds|j v].
      - refine (off_preempted _ _ _ _ _ _ _ _ O1 H2). cbn [taskP]. apply safe_execute. exact Hno.
      - refine (off_preempted _ _ _ _ _ _ _ _ O1 H2). cbn [taskP]. apply safe_pbind; [apply safe_init; exact Hno|intro; exact Logic.I].
      - exact (same_off _ _ (proj1 (datagram_off ds w _ _ _ _ _ Hw O1 HR1 H2)) O1).
      - refine (off_preempted _ _ _ _ _ _ _ _ O1 H2). cbn [taskP]. apply safe_pbind; [apply safe_callback|intro; exact Logic.I]. }
    assert (HR2 : exists l2, Rl l2 s2).
    { assert (M : mainloop E [(os, t, w)] s = Ok ([o], s2, e1 ++ e2 ++ [])).
      { cbn [mainloop]. unfold bind, ret. rewrite H1, H2. rewrite !app_nil_r. reflexivity. }
      eexists. refine (loop_heard_on E [(os, t, w)] _ _ _ _ _ _ HR M). constructor; [exact Hw|constructor]. }
    destruct HR2 as [l2 HR2]. exact (IH _ _ _ _ _ Hts O2 HR2 H3).
  Qed.
  Theorem logon_stays_off : forall ts i outs s es, Forall (fun t => Forall (Forall handler) (snd t)) ts ->
    mainloop E ts (st0 i) = Ok (outs, s, es) -> logon_off s.
  Proof. intros ts i outs s es Hts H. exact (off_loop ts listener0 (st0 i) _ _ _ Hts eq_refl (Rl0 i) H). Qed.
  Theorem packets_ignored : forall ts i outs s0 e0 os s' es, Forall (fun t => Forall (Forall handler) (snd t)) ts ->
    mainloop E ts (st0 i) = Ok (outs, s0, e0) -> Forall handler os -> run E os s0 = Ok (tt, s', es) -> same_decoder s0 s' /\ commands es = [].
  Proof.
    intros ts i outs s0 e0 os s' es Hts H0 Hos H.
    destruct (handlers_ignore E deaf _ _ _ _ _ _ Hos (logon_stays_off _ _ _ _ _ Hts H0) (loop_heard_on E _ _ _ _ _ _ Hts (Rl0 i) H0) (near_refl s0) H) as [N C].
    split; [exact (same_near _ _ N)|exact C].
  Qed.
End Off.

Section Layout.
  Context {I : Type} (E : Env I) (m : I -> Z -> Z) (able : access -> Prop) (Hk : keeps_cvs able E m) (Hno : never_logs_on E).
  Hypothesis deaf : forall i d, e_hook E i (ETransmitBiDi d) = i.
  Implicit Types s : st I.
  Notation Sim := (Sim m).
  Notation sound := (sound m).

  Lemma quiet_step : forall o l v s b s' es, sound l v s -> logon_off s -> step E o s = Ok (b, s', es) ->
    let x := obey_all (e_east_west E) (match o with OExecute => if l_fresh l then [] else firstn 1 (l_queue l) | _ => [] end) v in
    Forall (allowed able) (snd x) -> sound (listen o l) (fst x) s' /\ seen_in es = snd x.
  Proof.
    intros o l v s b s' es Hg Ho H.
    assert (C : (exists t, o = OReceive t) \/ completed o l = None) by (destruct o; cbn [completed]; eauto).
    destruct C as [[t ->]|C]; [|apply (sound_step E m able Hk o l v s b s' es Hg H); intros bs Hc; congruence].
    cbv zeta. cbn [obey_all fst snd]. intros _. destruct Hg as (HR & HS & Hvp & Hpe & Hq).
    pose proof (step_refines E _ _ _ _ _ _ HR H) as HR2.
    cbn [step] in H. apply bind_inv in H. destruct H as (u & s3 & e3 & e4 & H & Hr & ->). inversion Hr; subst.
    destruct (ignores_receive E t _ _ _ _ Ho H) as (B1 & B2 & B3 & -> & _). split; [|reflexivity].
    split; [exact HR2|]. split; [exact (Sim_same m _ _ _ (same_of_mask _ _ _ B1 B2 B3) HS)|]. split; [exact Hvp|].
    split; [congruence|apply listen_sound; exact Hq].
  Qed.
  Lemma quiet_run : forall os l v s s' es, sound l v s -> logon_off s -> run E os s = Ok (tt, s', es) ->
    let x := obey_all (e_east_west E) (SpecRx.taken os l) v in
    Forall (allowed able) (snd x) -> (sound (listen_all os l) (fst x) s' /\ logon_off s') /\ seen_in es = snd x.
  Proof.
    induction os as [|o os IH]; intros l v s s' es Hg Ho H; cbv zeta.
    - cbn [run] in H. unfold ret in H. assert (s' = s) as -> by congruence. assert (es = []) as -> by congruence. auto.
    - cbn [run] in H. apply bind_inv in H. destruct H as (b & s1 & e1 & e2 & H1 & H2 & ->).
      cbn [SpecRx.taken]. rewrite obey_app. cbn [fst snd]. intros Hra. apply Forall_app in Hra. destruct Hra as [Hr1 Hr2].
      destruct (quiet_step o l v s b s1 e1 Hg Ho H1 Hr1) as [G1 S1].
      destruct (IH _ _ _ _ _ G1 (off_step E Hno deaf _ _ _ _ _ Ho H1) H2 Hr2) as [G2 S2].
      split; [exact G2|]. rewrite seen_app, S1, S2. reflexivity.
  Qed.
  Lemma quiet_torn : forall w l v s o s' es, Forall (Forall handler) w -> sound l v s -> logon_off s ->
    preempted E (executeP E) w s = Ok (o, s', es) ->
    let x := obey_all (e_east_west E) (match worked_on o with Some p => [p] | None => [] end) v in
    Forall (allowed able) (snd x) ->
    (sound (without_first o (listen_all (served o) l)) (fst x) s' /\ logon_off s') /\ seen_in es = snd x.
  Proof.
    intros w l v s o s' es Hw (HR & HS & Hvp & Hpe & Hq) Hoff H. cbv zeta. intros Hra.
    destruct (torn_execute E w l s o s' es (handlers_interrupting _ Hw) HR H) as (_ & _ & HR' & Hp).
    pose proof (torn_off E Hno deaf w l s o s' es Hw HR Hoff H) as Ht.
    assert (Hq' : Forall sound_packet (l_queue (without_first o (listen_all (served o) l))))
      by (apply without_sound, listen_all_sound; exact Hq).
    destruct (worked_on o) as [p|].
    - assert (Hsp : sound_packet p).
      { assert (Ha : Forall sound_packet (l_queue l ++ heard (served o) l)) by (apply Forall_app; split; [exact Hq|apply heard_sound]).
        destruct (l_queue l ++ heard (served o) l); [discriminate|]. injection Hp as ->. inversion Ha; assumption. }
      destruct Ht as (s1 & Hx & Hsame).
      assert (Hrd : forall p' q', ready (only p s) p' q' -> Forall byte p' /\ (3 <= length p')%nat).
      { intros p' q' [_ Hd]. cbn in Hd. injection Hd as <- <-. exact Hsp. }
      assert (Hr0 : ready (only p s) p []) by (split; reflexivity).
      destruct (sim_execute E m able Hk v (only p s) (told o) s1 (commands es) Hrd (Sim_only m v p s HS) Hvp Hx)
        as [(_ & _ & Hn)|(p' & q' & [_ Hd] & Hs)]; [elim (Hn p [] Hr0)|].
      cbn in Hd. injection Hd as <- <-. cbn [obey_all] in *.
      pose proof (obey_page (e_east_west E) p v (proj1 Hsp) Hvp) as Hpg.
      destruct (obey (e_east_west E) p v) as [v1 a]. cbn [fst snd] in *. rewrite app_nil_r in *.
      destruct (Hs Hra) as [HS1 Hse]. rewrite seen_commands in Hse. split; [|exact Hse].
      split; [|exact (same_off _ _ Hsame (off_step E Hno deaf OExecute (only p s) _ _ _ Hoff Hx))].
      split; [exact HR'|]. split; [exact (Sim_same m _ _ _ Hsame HS1)|]. split; [exact Hpg|]. split; [|exact Hq'].
      rewrite (same_pending _ _ Hsame). exact (still_step E m able Hk OExecute (only p s) _ s1 _ Hpe Hx).
    - destruct Ht as (_ & Hsame & Hc). cbn [obey_all fst snd]. split; [|rewrite <- seen_commands, Hc; reflexivity]. split; [|exact (same_off _ _ Hsame Hoff)].
      split; [exact HR'|]. split; [exact (Sim_same m _ _ _ Hsame HS)|]. split; [exact Hvp|]. split; [|exact Hq'].
      rewrite (same_pending _ _ Hsame). exact Hpe.
  Qed.

  Lemma quiet_task : forall t w l v s o s' es, Forall (Forall handler) w -> sound l v s -> logon_off s ->
    preempted E (taskP E t) w s = Ok (o, s', es) ->
    let x := obey_all (e_east_west E) (match packet_of t o with Some p => [p] | None => [] end) v in
    Forall (allowed able) (snd x) -> (sound (round [] t o l) (fst x) s' /\ logon_off s') /\ seen_in es = snd x.
  Proof.
    intros t w l v s o s' es Hw HG Hoff H. assert (Ht : t = TExecute \/ t <> TExecute) by (destruct t; [left; reflexivity|right; discriminate..]).
    destruct Ht as [->|Ht]; [exact (quiet_torn w l v s o s' es Hw HG Hoff H)|]. cbv zeta.
    assert (Hp : packet_of t o = None) by (destruct t; [congruence|reflexivity..]). rewrite Hp. cbn [obey_all fst snd]. intros _.
    destruct HG as (HR & HS & Hvp & Hpe & Hq).
    destruct (task_queue E t w l s o s' es (handlers_interrupting _ Hw) HR H) as (HR' & _). pose proof (WholeProofs.round_sound t o l Hq) as Hq'.
    assert (K : (t = TInit \/ exists i v, t = TCallback i v) \/ exists ds, t = TDatagram ds).
    { destruct t as [| |ds|i j]; [congruence|left; left; reflexivity|right; eauto|left; right; eauto]. }
    destruct K as [K|[ds ->]].
    - destruct (task_off E Hno deaf t w l s o s' es K Hw Hoff HR H) as (s1 & H1 & Hsame).
      destruct (sound_step E m able Hk (call_of t) l v s (told o) s1 (commands es) (conj HR (conj HS (conj Hvp (conj Hpe Hq)))) H1) as [(G1 & G2 & G3 & G4 & G5) Hs].
      { destruct t; [congruence| | |]; intros bs Hc; discriminate. }
      { destruct t; [congruence| | |]; cbn [call_of obey_all snd]; constructor. }
      assert (X : obey_all (e_east_west E) (match call_of t with OExecute => if l_fresh l then [] else firstn 1 (l_queue l) | _ => [] end) v = (v, []))
        by (destruct t; [congruence|reflexivity..]).
      rewrite X in G2, G3, Hs. cbn [fst snd] in *. rewrite seen_commands in Hs. split; [|exact Hs]. split; [|exact (same_off _ _ Hsame (off_step E Hno deaf _ _ _ _ _ Hoff H1))].
      split; [exact HR'|]. split; [exact (Sim_same m _ _ _ Hsame G2)|]. split; [exact Hvp|]. split; [rewrite (same_pending _ _ Hsame); exact G4|exact Hq'].
    - destruct (datagram_off E deaf ds w l s o s' es Hw Hoff HR H) as [Hsame Hc]. split; [|rewrite <- seen_commands, Hc; reflexivity]. split; [|exact (same_off _ _ Hsame Hoff)].
      split; [exact HR'|]. split; [exact (Sim_same m _ _ _ Hsame HS)|]. split; [exact Hvp|]. split; [rewrite (same_pending _ _ Hsame); exact Hpe|exact Hq'].
  Qed.
  Lemma quiet_loop : forall ts l v s outs s' es, Forall (fun t => Forall (Forall handler) (snd t)) ts -> sound l v s -> logon_off s ->
    mainloop E ts s = Ok (outs, s', es) ->
    let x := obey_all (e_east_west E) (loop_executed ts outs l) v in
    Forall (allowed able) (snd x) -> sound (loop_listened ts outs l) (fst x) s' /\ seen_in es = snd x.
  Proof.
    induction ts as [|[[os t] w] ts IH]; intros l v s outs s' es Hw Hg Hoff H; cbv zeta.
    - cbn [mainloop] in H. unfold ret in H. assert (outs = []) as -> by congruence. assert (s' = s) as -> by congruence.
      assert (es = []) as -> by congruence. auto.
    - inversion Hw as [|? ? Hw1 Hw2]; subst. cbn [snd] in Hw1. cbn [mainloop] in H.
      apply bind_inv in H. destruct H as ([] & s1 & e1 & f1 & H1 & H & ->).
      apply bind_inv in H. destruct H as (o & s2 & e2 & f2 & H2 & H & ->).
      apply bind_inv in H. destruct H as (y & s3 & e3 & f3 & H3 & H & ->). unfold ret in H.
      assert (outs = o :: y) as -> by congruence. assert (s' = s3) as -> by congruence. assert (f3 = []) as -> by congruence.
      rewrite app_nil_r. clear H.
      cbn [loop_executed loop_listened]. rewrite !obey_app. cbn [fst snd]. intros Hra.
      apply Forall_app in Hra. destruct Hra as [R1 Hra]. apply Forall_app in Hra. destruct Hra as [R2 R3].
      destruct (quiet_run os l v s s1 e1 Hg Hoff H1 R1) as [[G1 O1] S1].
      destruct (quiet_task t w _ _ s1 o s2 e2 Hw1 G1 O1 H2 R2) as [[G2 O2] S2].
      change (round [] t o (listen_all os l)) with (round os t o l) in G2.
      destruct (IH _ _ _ _ _ _ Hw2 G2 O2 H3 R3) as [G3 S3].
      split; [exact G3|]. rewrite !seen_app, S1, S2, S3. reflexivity.
  Qed.

  Lemma quiet_fresh : forall os i l s s' es, Forall starting os -> logon_off s -> fresh i l s -> run E os s = Ok (tt, s', es) ->
    (fresh i (listen_all os l) s' /\ logon_off s') /\ seen_in es = [].
  Proof.
    induction os as [|o os IH]; intros i l s s' es Hh Hl HF H; [inversion H; subst; auto|]. inversion Hh as [|? ? Ho Hos]; subst.
    cbn [run] in H. apply bind_inv in H. destruct H as (b & s2 & e1 & e2 & H1 & H2 & ->).
    assert (K : fresh i (listen o l) s2 /\ seen_in e1 = []).
    { destruct HF as (HR & F1 & F2 & F3 & F4). pose proof (step_refines E _ _ _ _ _ _ HR H1) as HR2. pose proof (listen_sound o l F4) as Q2.
      assert (C : o = OEnable \/ o = ODisable \/ handler o) by (destruct o; try contradiction; cbn; auto).
      assert (D : (regs (rxs s2) = regs (rxs s) /\ pending s2 = pending s /\ app s2 = app s) /\ seen_in e1 = []).
      { destruct C as [-> |[-> |C]].
        1, 2: cbn [step] in H1; apply bind_inv in H1; destruct H1 as (u & s3 & e3 & e4 & H1 & Hr & ->); inversion Hr; subst;
          unfold enable, disable, reset in H1; rewrite bind_get in H1;
          match type of H1 with (if ?c then _ else _) _ = _ => destruct c end; inversion H1; subst; repeat split; reflexivity.
        destruct (handlers_ignore E deaf [o] l s s s2 e1) as ((N1 & N2 & N3 & _) & N5).
        - constructor; [exact C|constructor].
        - exact Hl.
        - exact HR.
        - apply near_refl.
        - cbn [run]. unfold bind. rewrite H1. unfold ret. rewrite app_nil_r. reflexivity.
        - split; [|rewrite <- seen_commands, N5; reflexivity]. split; [|auto]. unfold mask in N1. injection N1. intros. unfold regs. congruence. }
      destruct D as ((D1 & D2 & D3) & D4). split; [|exact D4]. unfold fresh. rewrite D1, D2, D3. auto. }
    destruct K as [K1 K2]. destruct (IH _ _ _ _ _ Hos (off_step E Hno deaf _ _ _ _ _ Hl H1) K1 H2) as [K3 K4]. split; [exact K3|]. rewrite seen_app, K2, K4. reflexivity.
  Qed.
  Theorem quiet_layout : forall os w ts i outs s es, Forall starting os -> Forall (Forall handler) w -> Forall (fun t => Forall (Forall handler) (snd t)) ts ->
    mainloop E ((os, TInit, w) :: ts) (st0 i) = Ok (outs, s, es) ->
    let ps := loop_executed ((os, TInit, w) :: ts) outs listener0 in let x := obey_all (e_east_west E) ps (new_view (m i)) in
    Forall (allowed able) (snd x) ->
    seen_in es = snd x /\ (forall a, m (app s) a = v_cvs (fst x) a) /\ in_service s = v_service (fst x) /\ page s = v_page (fst x) /\
    loop_heard ((os, TInit, w) :: ts) outs listener0 = ps ++ r_deque (rxs s).
  Proof.
    intros os w ts i outs s es Hos Hw Hts H ps x Hra. subst x.
    assert (Hq : loop_heard ((os, TInit, w) :: ts) outs listener0 = ps ++ r_deque (rxs s)).
    { refine (proj2 (loop_fifo E ((os, TInit, w) :: ts) i outs s es _ H)). constructor; [apply handlers_interrupting; exact Hw|].
      eapply Forall_impl; [|exact Hts]. intros t. apply handlers_interrupting. }
    cbn [mainloop] in H. apply bind_inv in H. destruct H as ([] & s1 & e1 & f1 & H1 & H & ->).
    apply bind_inv in H. destruct H as (o & s2 & e2 & f2 & H2 & H & ->).
    apply bind_inv in H. destruct H as (y & s3 & e3 & f3 & H3 & H & ->). unfold ret in H.
    assert (outs = o :: y) as -> by congruence. assert (s = s3) as -> by congruence. assert (f3 = []) as -> by congruence. rewrite app_nil_r. clear H.
    assert (F0 : fresh i listener0 (st0 i)) by (split; [exact (Rl0 i)|repeat split; constructor]).
    destruct (quiet_fresh os i listener0 (st0 i) s1 e1 Hos eq_refl F0 H1) as [[F1 O1] S1].
    assert (G2 : (sound (round os TInit o listener0) (new_view (m i)) s2 /\ logon_off s2) /\ seen_in e2 = []).
    { destruct (task_off E Hno deaf TInit w _ s1 o s2 e2 (or_introl eq_refl) Hw O1 (proj1 F1) H2) as (s4 & H4 & Hsame).
      destruct (fresh_init E m able Hk i _ s1 _ s4 _ F1 H4) as (A1 & A2 & A3). rewrite seen_commands in A3. split; [|exact A3].
      split; [|exact (same_off _ _ Hsame (off_step E Hno deaf OInit _ _ _ _ O1 H4))].
      destruct (task_queue E TInit w _ s1 o s2 e2 (handlers_interrupting _ Hw) (proj1 F1) H2) as (HR' & _).
      split; [exact HR'|]. split; [exact (Sim_same m _ _ _ Hsame A1)|]. split; [unfold byte; cbn; lia|]. split; [rewrite (same_pending _ _ Hsame); exact A2|].
      apply (WholeProofs.round_sound TInit o (listen_all os listener0)). apply F1. }
    destruct G2 as [[G2 O2] S2].
    assert (Hps : ps = loop_executed ts y (round os TInit o listener0)).
    { unfold ps. cbn [loop_executed packet_of List.app]. replace (SpecRx.taken os listener0) with (@nil (list Z)); [reflexivity|].
      clear - Hos. revert Hos. generalize listener0. induction os as [|x os IH]; intros l H; [reflexivity|]. inversion H; subst. cbn [SpecRx.taken].
      destruct x; try contradiction; cbn [List.app]; apply IH; assumption. }
    rewrite Hps in *. clear Hps ps.
    destruct (quiet_loop ts _ _ _ _ _ _ Hts G2 O2 H3 Hra) as [(_ & HS & _) S3].
    rewrite !seen_app, S1, S2, S3. split; [reflexivity|]. split; [exact (proj1 HS)|].
    destruct HS as (_ & _ & HS & _). unfold regs in HS. unfold in_service, page. split; [congruence|]. split; [congruence|]. exact Hq.
  Qed.
End Layout.
