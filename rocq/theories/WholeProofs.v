(** Calls of the main loop that are interrupted do what they do otherwise. *)
From Verif Require Import Prelude Address SpecCodec RxState Rx RxLogic SpecRx RxBitProofs RxBitProofs4
  SpecExec ExecProofs SpecConf ConfProofs SpecCv SpecLayout LayoutProofs LayoutProofs2 LayoutProofs3 LayoutProofs4
  Preempt PreemptData SpecPreempt PreemptProofs PreemptProofs2 PreemptProofs3 PreemptProofs4 SpecTorn TornProofs PreemptLoop SpecLoop LoopProofs StoredProofs4 SpecWhole.

Section Free.
  Context {I : Type} (E : Env I).
  Hypothesis deaf : forall i d, e_hook E i (ETransmitBiDi d) = i.
  Implicit Types s : st I.

  (** A step that does the same in both states, whatever is queued *)
  Definition free (B : Type) (m : M (I := I) B) : Prop :=
    keeps core m /\
    forall s s', near s s' ->
    match m s, m s' with
    | Ok (a, s1, e1), Ok (a', s1', e1') => a = a' /\ e1 = e1' /\ near s1 s1' /\ Forall (fun e => transmission e = false) e1
    | UB u, UB u' => u = u'
    | _, _ => False
    end.
  Ltac open_near H :=
    match type of H with near ?s ?s' => destruct s as [r i ps], s' as [r' i' ps'] end;
    destruct H as (Hm & Ha & Hps & Ht); cbn [rxs app pending] in *; subst.
  Lemma free_gets : forall X (f : rx -> X), (forall r r', mask r' = mask r -> f r' = f r) -> free X (gets f).
  Proof.
    intros X f Hf. split; [intros ? ? ? ? H; inversion H; reflexivity|]. intros s s' H. open_near H. unfold gets. cbn [rxs].
    rewrite (Hf r r' Hm). repeat split; auto.
  Qed.
  Lemma free_modify : forall f : rx -> rx, (forall r r', mask r' = mask r -> mask (f r') = mask (f r)) -> (forall r, core (f r) = core r) ->
    (forall r, tos_deque (r_bidi (f r)) = tos_deque (r_bidi r)) -> free unit (modify f).
  Proof.
    intros f Hf Hc Hto. split; [apply keeps_modify; exact Hc|]. intros s s' H. open_near H. unfold modify. cbn [rxs app pending].
    split; [reflexivity|]. split; [reflexivity|]. split; [|constructor]. unfold near. cbn [rxs app pending]. rewrite !Hto. repeat split; auto.
  Qed.
  Lemma free_ask : forall B (m : M (I := I) B) (f : I -> list pend -> B * I * list pend * list event),
    (forall r i ps, m (Mk_st r i ps) = let '(b, i', ps', es) := f i ps in Ok (b, Mk_st r i' ps', es)) ->
    (forall i ps, Forall (fun e => transmission e = false) (snd (f i ps))) -> free B m.
  Proof.
    intros B m f Hf Hn. split.
    - intros [r i ps] a s' es H. rewrite Hf in H. destruct (f i ps) as [[[b i'] ps'] e]. inversion H; subst. reflexivity.
    - intros s s' H. open_near H. rewrite !Hf.
      match goal with |- context [f ?i ?ps] => specialize (Hn i ps); destruct (f i ps) as [[[b j] qs] e] end. cbn [snd] in Hn. repeat split; auto.
  Qed.
  Lemma free_fail : forall B u, free B (fail u).
  Proof. intros B u. split; [apply keeps_fail|]. intros s s' H. reflexivity. Qed.
  Lemma free_readCv : forall cv, free _ (readCv E cv).
  Proof.
    intros cv. apply (free_ask _ _ (fun i (ps : list pend) => let '(v, i') := e_readCv E i cv in (u8 v, i', ps, [EReadCv cv (u8 v)]))).
    - intros r i ps. unfold readCv. cbn [rxs app pending]. destruct (e_readCv E i cv). reflexivity.
    - intros i ps. destruct (e_readCv E i cv). cbn [snd]. repeat constructor.
  Qed.
  Lemma free_call : forall e, transmission e = false -> free _ (call E e).
  Proof.
    intros e He. apply (free_ask _ _ (fun i (ps : list pend) => (tt, e_hook E i e, ps, [e]))); [reflexivity|]. intros. cbn [snd]. repeat constructor. exact He.
  Qed.
  Lemma free_pending : forall X (f : list pend -> X), free X (fun s => Ok (f (pending s), s, [])).
  Proof. intros X f. apply (free_ask _ _ (fun i (ps : list pend) => (f ps, i, ps, []))); [reflexivity|]. intros. constructor. Qed.

  Lemma free_near : forall A (P : prog A), acts free P -> forall w l s s' a sn sv s1' es',
    Forall (Forall handler) w -> no_logon sv l -> Rl l s' -> near s s' -> preempted E P w s' = Ok ((a, sn, sv), s1', es') ->
    exists s1 es, flat P s = Ok (a, s1, es) /\ near s1 s1' /\ commands es' = es.
  Proof.
    intros A P. induction P as [a|B m k IH]; intros HP w l s s' a' sn sv s1' es' Hw Hn HR Ha H.
    - inversion H; subst. exists s, []. repeat split; auto; apply Ha.
    - destruct HP as [[Hk Hm] HP]. apply preempted_inv in H.
      destruct H as (s2 & e1 & b & s3 & e2 & a0 & sn1 & sv1 & e3 & H1 & H2 & H3 & Ho & ->).
      injection Ho as -> -> ->. apply no_logon_app in Hn. destruct Hn as [Hn1 Hn2].
      destruct (handlers_near E deaf _ _ _ _ _ _ (handlers_hd w Hw) Hn1 HR Ha H1) as [Ha2 He1].
      pose proof (run_refines E _ _ _ _ _ HR H1) as HR2.
      pose proof (Rl_core _ _ _ (Hk _ _ _ _ H2) HR2) as HR3.
      specialize (Hm _ _ Ha2). rewrite H2 in Hm.
      destruct (m s) as [[[b' s4] e4]|u] eqn:Em; [|contradiction].
      destruct Hm as (-> & -> & Ha3 & Hf).
      destruct (IH b (HP b) _ _ _ _ _ _ _ _ _ (handlers_tl w Hw) Hn2 HR3 Ha3 H3) as (s5 & es & H5 & Ha5 & He).
      exists s5, (e2 ++ es). split; [cbn [flat]; unfold bind; rewrite Em, H5; reflexivity|]. split; [exact Ha5|].
      rewrite !commands_app, He1, He, (commands_all e2) by exact Hf. reflexivity.
  Qed.
  Ltac free_leaf :=
    lazymatch goal with
    | |- free _ (gets _) => apply free_gets; masked
    | |- free _ (modify _) => apply free_modify; [masked|intros; reflexivity|intros; reflexivity]
    | |- free _ (readCv _ _) => apply free_readCv
    | |- free _ (call _ _) => apply free_call; reflexivity
    | |- free _ (fail _) => apply free_fail
    end.
  Lemma free_init : acts free (initP E). Proof. acts_tac; free_leaf. Qed.
  Lemma free_run_cb : forall c v, acts free (run_cbP E c v). Proof. intros. acts_tac; free_leaf. Qed.

  Lemma near_refl : forall s, near s s. Proof. intro s. repeat split; auto. Qed.
  Lemma same_near : forall s s', near s s' -> same_decoder s s'.
  Proof. intros s s' (H1 & H2 & H3 & _). apply same_of_mask; assumption. Qed.

  (** init() and the callbacks *)
  Lemma task_same : forall t w l s o s' es, t = TInit \/ (exists i v, t = TCallback i v) -> Forall (Forall handler) w -> no_logon (served o) l -> Rl l s ->
    preempted E (taskP E t) w s = Ok (o, s', es) -> exists s1, step E (call_of t) s = Ok (told o, s1, commands es) /\ same_decoder s1 s'.
  Proof.
    intros t w l s [[a sn] sv] s' es Ht Hw Hn HR H. assert (Hf : acts free (taskP E t)).
    { destruct Ht as [-> |(i & v & ->)]; cbn [taskP]; (apply acts_pbind; [|intro; exact Logic.I]); [apply free_init|].
      unfold callbackP. apply acts_pbind; [apply acts_act, (free_pending _ (fun ps => nth_error ps i))|]. intros [c|]; [apply free_run_cb|exact Logic.I]. }
    destruct (free_near _ _ Hf _ _ _ _ _ _ _ _ _ Hw Hn HR (near_refl s) H) as (s1 & es1 & H1 & H2 & <-). rewrite flat_task in H1.
    exists s1. split; [exact H1|exact (same_near _ _ H2)].
  Qed.

  (** datagram() leaves the commands alone *)
  Definition bland (B : Type) (m : M (I := I) B) : Prop := keeps core m /\ forall s a s' es, m s = Ok (a, s', es) -> near s s' /\ es = [].
  Lemma near_trans : forall s1 s2 s3, near s1 s2 -> near s2 s3 -> near s1 s3.
  Proof. intros s1 s2 s3 (A1 & A2 & A3 & A4) (B1 & B2 & B3 & B4). unfold near. repeat split; [congruence|congruence|congruence|]. intro K. apply B4, A4, K. Qed.
  Lemma bland_near : forall A (P : prog A), acts bland P -> forall w l s a sn sv s' es, Forall (Forall handler) w -> no_logon sv l -> Rl l s ->
    preempted E P w s = Ok ((a, sn, sv), s', es) -> near s s' /\ commands es = [].
  Proof.
    intros A P. induction P as [a|B m k IH]; intros HP w l s a' sn sv s' es Hw Hn HR H.
    - inversion H; subst. split; [apply near_refl|reflexivity].
    - destruct HP as [[Hk Hm] HP]. apply preempted_inv in H.
      destruct H as (s2 & e1 & b & s3 & e2 & a0 & sn1 & sv1 & e3 & H1 & H2 & H3 & Ho & ->).
      injection Ho as -> -> ->. apply no_logon_app in Hn. destruct Hn as [Hn1 Hn2].
      destruct (handlers_near E deaf _ _ _ _ _ _ (handlers_hd w Hw) Hn1 HR (near_refl s) H1) as [Ha2 He1].
      pose proof (run_refines E _ _ _ _ _ HR H1) as HR2. pose proof (Rl_core _ _ _ (Hk _ _ _ _ H2) HR2) as HR3.
      destruct (Hm _ _ _ _ H2) as [N3 ->]. destruct (IH b (HP b) _ _ _ _ _ _ _ _ (handlers_tl w Hw) Hn2 HR3 H3) as [N4 C4].
      split; [exact (near_trans _ _ _ (near_trans _ _ _ Ha2 N3) N4)|]. rewrite !commands_app, He1, C4. reflexivity.
  Qed.
  Lemma bland_datagram : forall ds, acts bland (taskP E (TDatagram ds)).
  Proof.
    intros ds. cbn [taskP]. apply acts_pbind; [|intro; exact Logic.I].
      assert (G : forall B (f : rx -> B), bland B (gets f)).
      { intros B f. split; [intros s0 b s0' es0 K; inversion K; reflexivity|]. intros s0 b s0' es0 K. inversion K; subst. split; [apply near_refl|reflexivity]. }
      assert (F : forall f : rx -> rx, (forall r, core (f r) = core r) -> (forall r, mask (f r) = mask r) -> (forall r, tos_deque (r_bidi (f r)) = tos_deque (r_bidi r)) -> bland unit (modify f)).
      { intros f F1 F2 F3. split; [apply keeps_modify; exact F1|]. intros s0 b s0' es0 K. unfold modify in K. inversion K; subst. split; [|reflexivity].
        unfold near. cbn [rxs app pending]. rewrite F2, F3. auto. }
      apply acts_datagram; [exact G|intro; apply F; reflexivity|]. apply acts_push; [exact G| |intro; apply F; reflexivity].
      intros B u. split; [apply keeps_fail|]. intros s0 b s0' es0 K. discriminate.
  Qed.
  Lemma datagram_same : forall ds w l s o s' es, Forall (Forall handler) w -> no_logon (served o) l -> Rl l s ->
    preempted E (taskP E (TDatagram ds)) w s = Ok (o, s', es) -> same_decoder s s' /\ commands es = [].
  Proof.
    intros ds w l s [[a sn] sv] s' es Hw Hn HR H. destruct (bland_near _ _ (bland_datagram ds) _ _ _ _ _ _ _ _ Hw Hn HR H) as [N C]. split; [exact (same_near _ _ N)|exact C].
  Qed.
End Free.

Section Whole.
  Context {I : Type} (E : Env I) (m : I -> Z -> Z) (able : access -> Prop) (Hk : keeps_cvs able E m).
  Hypothesis deaf : forall i d, e_hook E i (ETransmitBiDi d) = i.
  Implicit Types s : st I.
  Notation sound := (sound m).

  Lemma call_done : forall t, t <> TExecute -> forall l, listen (call_of t) l = l.
  Proof. intros [| |ds|i v] Ht l; [congruence|reflexivity..]. Qed.
  Lemma round_sound : forall t o l, Forall sound_packet (l_queue l) -> Forall sound_packet (l_queue (round [] t o l)).
  Proof.
    intros t o l H. unfold round. pose proof (listen_all_sound (served o) l H) as K. cbn [listen_all fold_left]. fold (listen_all (served o) l).
    destruct (packet_of t o); [|exact K]. cbn [l_queue]. destruct (l_queue (listen_all (served o) l)); [constructor|]. inversion K; assumption.
  Qed.
  Lemma sound_task : forall t w l v s o s' es, Forall (Forall handler) w -> sound l v s ->
    preempted E (taskP E t) w s = Ok (o, s', es) -> logons (served o) l = [] ->
    let x := obey_all (e_east_west E) (match packet_of t o with Some p => [p] | None => [] end) v in
    Forall (allowed able) (snd x) -> sound (round [] t o l) (fst x) s' /\ seen_in es = snd x.
  Proof.
    intros t w l v s o s' es Hw HG H Hlo. assert (Ht : t = TExecute \/ t <> TExecute) by (destruct t; [left; reflexivity|right; discriminate..]).
    destruct Ht as [->|Ht]; [exact (sound_torn E m able Hk deaf w l v s o s' es Hw HG H Hlo)|]. cbv zeta.
    assert (Hp : packet_of t o = None) by (destruct t; [congruence|reflexivity..]). rewrite Hp. cbn [obey_all fst snd]. intros _.
    destruct HG as (HR & HS & Hvp & Hpe & Hq). pose proof (logons_none _ _ Hlo) as Hn.
    destruct (task_queue E t w l s o s' es (handlers_interrupting _ Hw) HR H) as (HR' & _). pose proof (round_sound t o l Hq) as Hq'.
    assert (K : (t = TInit \/ exists i v, t = TCallback i v) \/ exists ds, t = TDatagram ds).
    { destruct t as [| |ds|i j]; [congruence|left; left; reflexivity|right; eauto|left; right; eauto]. }
    destruct K as [K|[ds ->]].
    - destruct (task_same E deaf t w l s o s' es K Hw Hn HR H) as (s1 & H1 & Hsame).
      destruct (sound_step E m able Hk (call_of t) l v s (told o) s1 (commands es) (conj HR (conj HS (conj Hvp (conj Hpe Hq)))) H1) as [(G1 & G2 & G3 & G4 & G5) Hs].
      { destruct t; [congruence| | |]; intros bs Hc; discriminate. }
      { destruct t; [congruence| | |]; cbn [call_of obey_all snd]; constructor. }
      assert (X : obey_all (e_east_west E) (match call_of t with OExecute => if l_fresh l then [] else firstn 1 (l_queue l) | _ => [] end) v = (v, []))
        by (destruct t; [congruence|reflexivity..]).
      rewrite X in G2, G3, Hs. cbn [fst snd] in *. rewrite seen_commands in Hs. split; [|exact Hs].
      split; [exact HR'|]. split; [exact (Sim_same m _ _ _ Hsame G2)|]. split; [exact Hvp|]. split; [rewrite (same_pending _ _ Hsame); exact G4|exact Hq'].
    - destruct (datagram_same E deaf ds w l s o s' es Hw Hn HR H) as [Hsame Hc]. split; [|rewrite <- seen_commands, Hc; reflexivity].
      split; [exact HR'|]. split; [exact (Sim_same m _ _ _ Hsame HS)|]. split; [exact Hvp|]. split; [rewrite (same_pending _ _ Hsame); exact Hpe|exact Hq'].
  Qed.
  Lemma sound_loop : forall ts l v s outs s' es, Forall (fun t => Forall (Forall handler) (snd t)) ts -> sound l v s ->
    mainloop E ts s = Ok (outs, s', es) -> loop_unassigned ts outs l ->
    let x := obey_all (e_east_west E) (loop_executed ts outs l) v in
    Forall (allowed able) (snd x) -> sound (loop_listened ts outs l) (fst x) s' /\ seen_in es = snd x.
  Proof.
    induction ts as [|[[os t] w] ts IH]; intros l v s outs s' es Hw Hg H Hlo; cbv zeta.
    - cbn [mainloop] in H. unfold ret in H. assert (outs = []) as -> by congruence. assert (s' = s) as -> by congruence.
      assert (es = []) as -> by congruence. auto.
    - inversion Hw as [|? ? Hw1 Hw2]; subst. cbn [snd] in Hw1. cbn [mainloop] in H.
      apply bind_inv in H. destruct H as ([] & s1 & e1 & f1 & H1 & H & ->).
      apply bind_inv in H. destruct H as (o & s2 & e2 & f2 & H2 & H & ->).
      apply bind_inv in H. destruct H as (y & s3 & e3 & f3 & H3 & H & ->). unfold ret in H.
      assert (outs = o :: y) as -> by congruence. assert (s' = s3) as -> by congruence. assert (f3 = []) as -> by congruence.
      rewrite app_nil_r. clear H. cbn [loop_unassigned] in Hlo. destruct Hlo as (L1 & L2 & L3).
      cbn [loop_executed loop_listened]. rewrite !obey_app. cbn [fst snd]. intros Hra.
      apply Forall_app in Hra. destruct Hra as [R1 Hra]. apply Forall_app in Hra. destruct Hra as [R2 R3].
      destruct (sound_run E m able Hk os l v s s1 e1 Hg H1 L1 R1) as [G1 S1].
      destruct (sound_task t w _ _ s1 o s2 e2 Hw1 G1 H2 L2 R2) as [G2 S2].
      change (round [] t o (listen_all os l)) with (round os t o l) in G2.
      destruct (IH _ _ _ _ _ _ Hw2 G2 H3 L3 R3) as [G3 S3].
      split; [exact G3|]. rewrite !seen_app, S1, S2, S3. reflexivity.
  Qed.

  (** Before the first init() *)
  Definition fresh (i : I) (l : listener) s : Prop :=
    Rl l s /\ regs (rxs s) = regs (rxs (st0 i)) /\ pending s = [] /\ app s = i /\ Forall sound_packet (l_queue l).
  Lemma fresh_run : forall os i l s s' es, Forall starting os -> logons os l = [] -> fresh i l s -> run E os s = Ok (tt, s', es) ->
    fresh i (listen_all os l) s' /\ seen_in es = [].
  Proof.
    induction os as [|o os IH]; intros i l s s' es Hh Hl HF H; [inversion H; subst; auto|]. inversion Hh as [|? ? Ho Hos]; subst.
    pose proof (logons_none _ _ Hl) as [Hn1 Hn2]. cbn [logons] in Hl. apply app_eq_nil in Hl. destruct Hl as [_ Hl].
    cbn [run] in H. apply bind_inv in H. destruct H as (b & s2 & e1 & e2 & H1 & H2 & ->).
    assert (K : fresh i (listen o l) s2 /\ seen_in e1 = []).
    { destruct HF as (HR & F1 & F2 & F3 & F4). pose proof (step_refines E _ _ _ _ _ _ HR H1) as HR2. pose proof (listen_sound o l F4) as Q2.
      assert (C : o = OEnable \/ o = ODisable \/ handler o) by (destruct o; try contradiction; cbn; auto).
      assert (D : (regs (rxs s2) = regs (rxs s) /\ pending s2 = pending s /\ app s2 = app s) /\ seen_in e1 = []).
      { destruct C as [-> |[-> |C]].
        1, 2: cbn [step] in H1; apply bind_inv in H1; destruct H1 as (u & s3 & e3 & e4 & H1 & Hr & ->); inversion Hr; subst;
          unfold enable, disable, reset in H1; rewrite bind_get in H1;
          match type of H1 with (if ?c then _ else _) _ = _ => destruct c end; inversion H1; subst; repeat split; reflexivity.
        destruct (handlers_near E deaf [o] l s s s2 e1) as ((N1 & N2 & N3 & _) & N5).
        - constructor; [exact C|constructor].
        - split; [exact Hn1|exact Logic.I].
        - exact HR.
        - apply near_refl.
        - cbn [run]. unfold bind. rewrite H1. unfold ret. rewrite app_nil_r. reflexivity.
        - split; [|rewrite <- seen_commands, N5; reflexivity]. split; [|auto]. unfold mask in N1. injection N1. intros. unfold regs. congruence. }
      destruct D as ((D1 & D2 & D3) & D4). split; [|exact D4]. unfold fresh. rewrite D1, D2, D3. auto. }
    destruct K as [K1 K2]. destruct (IH _ _ _ _ _ Hos Hl K1 H2) as [K3 K4]. split; [exact K3|]. rewrite seen_app, K2, K4. reflexivity.
  Qed.
  Lemma fresh_init : forall i l s b s' es, fresh i l s -> step E OInit s = Ok (b, s', es) ->
    Sim m (new_view (m i)) s' /\ pending s' = [] /\ seen_in es = [].
  Proof.
    intros i l s b s' es (HR & F1 & F2 & F3 & F4) H. cbn [step] in H. apply bind_inv in H. destruct H as (u & s2 & e2 & e3 & H1 & H2 & ->). unfold ret in H2.
    assert (s' = s2) as -> by congruence. assert (e3 = []) as -> by congruence. rewrite app_nil_r in *. clear H2.
    assert (keeps regs (init E)) as Kr by keeps_tac. pose proof (Kr _ _ _ _ H1) as Hregs. rewrite F1 in Hregs.
    pose proof (still_step E m able Hk OInit s false s2 e2 F2) as Hpend.
    destruct (init_memory E m s (proj1 Hk)) as [[_ Hu]|(_ & t & Ht & Hconf & _ & Hmt)]; [congruence|].
    assert (s2 = t) as -> by congruence. assert (e2 = config_calls (m (app s)) (e_high_current E)) as -> by congruence.
    assert (logon (r_addrs (rxs t)) = logon (r_addrs (rxs (st0 i)))) as El by (unfold regs in Hregs; congruence). rewrite F3 in *.
    split; [|split; [apply Hpend; cbn [step]; unfold bind; rewrite H1; unfold ret; rewrite app_nil_r; reflexivity|apply plain_config]].
    split; [intros a; rewrite Hmt; reflexivity|]. split; [exact (proj1 Hconf)|].
    rewrite El. split; [rewrite Hregs; reflexivity|reflexivity].
  Qed.

  Theorem whole_layout : forall os w ts i outs s es, Forall starting os -> Forall (Forall handler) w -> Forall (fun t => Forall (Forall handler) (snd t)) ts ->
    mainloop E ((os, TInit, w) :: ts) (st0 i) = Ok (outs, s, es) -> loop_unassigned ((os, TInit, w) :: ts) outs listener0 ->
    let ps := loop_executed ((os, TInit, w) :: ts) outs listener0 in let x := obey_all (e_east_west E) ps (new_view (m i)) in
    Forall (allowed able) (snd x) ->
    seen_in es = snd x /\ (forall a, m (app s) a = v_cvs (fst x) a) /\ in_service s = v_service (fst x) /\ page s = v_page (fst x) /\
    loop_heard ((os, TInit, w) :: ts) outs listener0 = ps ++ r_deque (rxs s).
  Proof.
    intros os w ts i outs s es Hos Hw Hts H Hlo ps x Hra. subst x.
    assert (Hq : loop_heard ((os, TInit, w) :: ts) outs listener0 = ps ++ r_deque (rxs s)).
    { refine (proj2 (loop_fifo E ((os, TInit, w) :: ts) i outs s es _ H)). constructor; [apply handlers_interrupting; exact Hw|].
      eapply Forall_impl; [|exact Hts]. intros t. apply handlers_interrupting. }
    cbn [mainloop] in H. apply bind_inv in H. destruct H as ([] & s1 & e1 & f1 & H1 & H & ->).
    apply bind_inv in H. destruct H as (o & s2 & e2 & f2 & H2 & H & ->).
    apply bind_inv in H. destruct H as (y & s3 & e3 & f3 & H3 & H & ->). unfold ret in H.
    assert (outs = o :: y) as -> by congruence. assert (s = s3) as -> by congruence. assert (f3 = []) as -> by congruence. rewrite app_nil_r. clear H.
    cbn [loop_unassigned] in Hlo. destruct Hlo as (L1 & L2 & L3).
    assert (F0 : fresh i listener0 (st0 i)) by (split; [exact (Rl0 i)|repeat split; constructor]).
    destruct (fresh_run os i listener0 (st0 i) s1 e1 Hos L1 F0 H1) as [F1 S1].
    assert (G2 : sound (round os TInit o listener0) (new_view (m i)) s2 /\ seen_in e2 = []).
    { destruct (task_same E deaf TInit w _ s1 o s2 e2 (or_introl eq_refl) Hw (logons_none _ _ L2) (proj1 F1) H2) as (s4 & H4 & Hsame).
      destruct (fresh_init i _ s1 _ s4 _ F1 H4) as (A1 & A2 & A3). rewrite seen_commands in A3. split; [|exact A3].
      destruct (task_queue E TInit w _ s1 o s2 e2 (handlers_interrupting _ Hw) (proj1 F1) H2) as (HR' & _).
      split; [exact HR'|]. split; [exact (Sim_same m _ _ _ Hsame A1)|]. split; [unfold byte; cbn; lia|]. split; [rewrite (same_pending _ _ Hsame); exact A2|].
      apply (round_sound TInit o (listen_all os listener0)). apply F1. }
    destruct G2 as [G2 S2].
    assert (Hps : ps = loop_executed ts y (round os TInit o listener0)).
    { unfold ps. cbn [loop_executed packet_of List.app]. replace (SpecRx.taken os listener0) with (@nil (list Z)); [reflexivity|].
      clear - Hos. revert Hos. generalize listener0. induction os as [|x os IH]; intros l H; [reflexivity|]. inversion H; subst. cbn [SpecRx.taken].
      destruct x; try contradiction; cbn [List.app]; apply IH; assumption. }
    rewrite Hps in *. clear Hps ps.
    destruct (sound_loop ts _ _ _ _ _ _ Hts G2 H3 L3 Hra) as [(_ & HS & _) S3].
    rewrite !seen_app, S1, S2, S3. split; [reflexivity|]. split; [exact (proj1 HS)|].
    destruct HS as (_ & _ & HS & _). unfold regs in HS. unfold in_service, page. split; [congruence|]. split; [congruence|]. exact Hq.
  Qed.
End Whole.

Section After.
  Context {I : Type} (E : Env I).
  Hypothesis deaf : forall i d, e_hook E i (ETransmitBiDi d) = i.
  Implicit Types s : st I.
  Lemma loop_calls : forall ts i outs s0 e0 os s e1 t w o s' es,
    Forall (fun t => Forall (Forall handler) (snd t)) ts -> mainloop E ts (st0 i) = Ok (outs, s0, e0) -> run E os s0 = Ok (tt, s, e1) ->
    t = TInit \/ (exists k v, t = TCallback k v) ->
    Forall (Forall handler) w -> no_logon (served o) (listen_all os (loop_listened ts outs listener0)) ->
    preempted E (taskP E t) w s = Ok (o, s', es) ->
    exists s1, step E (call_of t) s = Ok (told o, s1, commands es) /\ same_decoder s1 s'.
  Proof.
    intros ts i outs s0 e0 os s e1 t w o s' es Hts H0 H1 Ht Hw Hn H.
    exact (task_same E deaf t w _ s o s' es Ht Hw Hn (run_refines E _ _ _ _ _ (loop_heard_on E _ _ _ _ _ _ Hts (Rl0 i) H0) H1) H).
  Qed.
  Lemma loop_datagram : forall ts i outs s0 e0 os s e1 ds w o s' es,
    Forall (fun t => Forall (Forall handler) (snd t)) ts -> mainloop E ts (st0 i) = Ok (outs, s0, e0) -> run E os s0 = Ok (tt, s, e1) ->
    Forall (Forall handler) w -> no_logon (served o) (listen_all os (loop_listened ts outs listener0)) ->
    preempted E (taskP E (TDatagram ds)) w s = Ok (o, s', es) -> same_decoder s s' /\ commands es = [].
  Proof.
    intros ts i outs s0 e0 os s e1 ds w o s' es Hts H0 H1 Hw Hn H.
    exact (datagram_same E deaf ds w _ s o s' es Hw Hn (run_refines E _ _ _ _ _ (loop_heard_on E _ _ _ _ _ _ Hts (Rl0 i) H0) H1) H).
  Qed.
End After.
