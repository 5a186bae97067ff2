(** Every step of such a session is defined *)
From Verif Require Import Prelude Address Packets ZBits SpecCodec SpecTx TxProofs Tx CodecProofs CodecProofs2 RxState Rx RxLogic SpecRx
  RxBitProofs RxBitProofs2 RxBitProofs3 RxBitProofs4 RxBitProofs5 PreemptProofs2 SpecExec SpecConf SpecCv SpecBidi SpecSafe SafeProofs2
  SpecLayout LayoutProofs LayoutProofs2 LayoutProofs3 LayoutProofs4 LayoutProofs5 LayoutProofs6 SpecLayout2 LayoutProofs7
  LayoutProofs8 Repl SpecRepl ReplProofs ReplProofs2 ReplProofs3 ReplProofs4 SpecStation StationProofs StationProofs2 StationProofs3
  StationProofs4 SpecAlike AlikeProofs AlikeProofs2 ReplProofs5 ReplWitness.
Local Ltac Zify.zify_post_hook ::= Z.div_mod_to_equations.

Lemma transmit_total : forall c h a ws s, R s a -> HI c h a ws -> exists t s' ev, transmit s = Ok (t, s', ev).
Proof.
  intros c h a ws s HR HH. pose proof (sim_step TTransmit s a HR) as Hs.
  destruct (HI_step c h a ws TTransmit HH Logic.I) as (x & a' & h' & ws' & E & _). rewrite E in Hs. cbn [tx_step] in Hs.
  destruct (transmit s) as [[[t s'] ev]|]; [eauto|destruct Hs].
Qed.
Lemma bytes_total : forall c h a ws s bs, R s a -> HI c h a ws -> (length bs <= 18)%nat -> exists s', tx_bytes bs s = Ok s'.
Proof.
  intros c h a ws s bs HR HH Hl. pose proof (sim_step (TBytes bs) s a HR) as Hs.
  destruct (HI_step c h a ws (TBytes bs) HH Hl) as (x & a' & h' & ws' & E & _). rewrite E in Hs. cbn [tx_step] in Hs.
  destruct (tx_bytes bs s) as [s'|]; [eauto|destruct Hs].
Qed.

Lemma run_last : forall dos i s es o s' es', run repl_env (OInit :: dos) (st0 i) = Ok (tt, s, es) ->
  run repl_env (OInit :: dos ++ [o]) (st0 i) = Ok (tt, s', es') ->
  exists b e', step repl_env o s = Ok (b, s', e') /\ es' = es ++ e'.
Proof.
  intros dos i s es o s' es' H1 H2. change (OInit :: dos ++ [o]) with ((OInit :: dos) ++ [o]) in H2.
  apply run_app in H2. destruct H2 as (s1 & e1 & e2 & H2 & H3 & ->). rewrite H1 in H2. apply Ok_inj in H2. injection H2 as <- <-.
  cbn [run] in H3. apply bind_inv in H3. destruct H3 as (b & s2 & e3 & e4 & H3 & H4 & ->). unfold ret in H4.
  apply Ok_inj in H4. injection H4 as -> <-. exists b, e3. split; [exact H3|]. rewrite app_nil_r. reflexivity.
Qed.

Lemma outside_app : forall a b, existsb outside (a ++ b) = false -> existsb outside b = false.
Proof. intros a b H. rewrite existsb_app in H. apply orb_false_iff in H. apply H. Qed.

Lemma queued_known : forall os p out h popped pss, every_command documented os -> every_command short_address os ->
  session os p out h popped pss -> forall bs, In bs (queued h) -> exists o, In o (orders_typed 3 os) /\ bs = packet_of o.
Proof.
  intros os p out h popped pss Hd Hs [_ _ Hty Hfi Hlo _] bs Hb.
  assert (H3 : 0 <= 3 <= 127) by lia. destruct (typed_ok os 3 Hd Hs H3) as [Hok _]. clear H3.
  assert (Hin : In bs (concat pss)) by (rewrite Hfi; apply in_or_app; left; exact (merged_In_left _ _ _ _ bs Hlo Hb)).
  revert Hty Hok. generalize (orders_typed 3 os). intros ods Hty Hok. clear - Hty Hok Hin.
  induction Hty as [|o ps ods pss Hp H IH]; [destruct Hin|]. inversion Hok as [|? ? H1 H2]; subst.
  cbn [concat] in Hin. apply in_app_or in Hin. destruct Hin as [Hin|Hin].
  - rewrite (packets_of_order o ps H1 Hp) in Hin. apply repeat_spec in Hin. exists o. split; [left; reflexivity|exact Hin].
  - destruct (IH Hin H2) as (o' & Ho' & E). exists o'. split; [right; exact Ho'|exact E].
Qed.

Definition idle_queue (p : repl) : Prop := forall s, p_decoder p = Some s -> (length (r_deque (rxs s)) <= 1)%nat.

Lemma every_app : forall P a b, every_command P (a ++ b) -> every_command P a.
Proof. intros P a b H c Hc. apply H, in_or_app. left. exact Hc. Qed.

Lemma init_first : exists s es, call_decoder (init repl_env) (st0 repl_cvs) = Done (tt, s, es) /\ r_deque (rxs s) = [].
Proof. eexists _, _. split; vm_compute; reflexivity. Qed.

Lemma total_step : forall os o p out h popped pss,
  every_command documented (os ++ [o]) -> every_command short_address (os ++ [o]) -> every_command leaves_cv1 (os ++ [o]) ->
  ready_first (os ++ [o]) -> attentive (os ++ [o]) -> session os p out h popped pss -> idle_queue p ->
  exists p1 x, repl_step o p = Done (p1, x) /\ idle_queue p1.
Proof.
  intros os o p out h popped pss Hd Hs Hl Hre Hat HS Hidle.
  pose proof (every_app _ _ _ Hd) as Hd1. pose proof (every_app _ _ _ Hs) as Hs1. pose proof (every_app _ _ _ Hl) as Hl1.
  pose proof (queued_known os p out h popped pss Hd1 Hs1 HS) as Hq.
  assert (H3 : 0 <= 3 <= 127) by lia. destruct (typed_ok os 3 Hd1 Hs1 H3) as [Hok Han]. clear H3.
  destruct HS as [(a & ws & HR & HH) Had Hty Hfi Hlo Hde].
  destruct o as [| | |c]; cbn [repl_step].
  - destruct (p_decoder p) as [s|] eqn:Ep; [eexists _, _; split; [reflexivity|exact Hidle]|].
    destruct init_first as (s & es & -> & Hz). cbn [rdo]. eexists _, _. split; [reflexivity|].
    intros s' Hs'. cbn [p_decoder] in Hs'. injection Hs' as <-. rewrite Hz. cbn. lia.
  - destruct (p_decoder p) as [s|] eqn:Ep; [|eexists _, _; split; [reflexivity|exact Hidle]].
    destruct Hde as (dos & D0 & D1 & D2 & D3 & D4 & D5).
    assert (Ho : orders_typed 3 (os ++ [RExecute]) = orders_typed 3 os) by (rewrite orders_typed_app; apply app_nil_r).
    destruct (decoder_total (os ++ [RExecute]) (dos ++ [OExecute]) h Hd Hs Hl Hat) as (s' & es' & Hrun & Hout & _ & Hle).
    { apply follows_one; [left; reflexivity|reflexivity|exact D0]. }
    { exact (HI_ok _ _ _ _ HH). }
    { rewrite Ho. exact Hq. }
    { rewrite filter_app. cbn [filter is_receive]. rewrite app_nil_r. exact D2. }
    destruct (run_last _ _ _ _ _ _ _ D1 Hrun) as (b & e' & Hstep & ->). cbn [step] in Hstep.
    unfold call_decoder. rewrite Hstep. cbn [defined rdo]. rewrite (outside_app _ _ Hout). cbn [rdo].
    eexists _, _. split; [reflexivity|]. intros t Ht. cbn [p_decoder] in Ht. injection Ht as <-. exact Hle.
  - destruct (transmit_total _ _ _ _ _ HR HH) as (t & tx & ev & Et). rewrite Et. cbn [defined rdo].
    destruct (station_transmit _ h a ws _ _ _ _ HR HH Et) as (a1 & ws1 & h1 & HR1 & HH1 & Hq1 & Ht1).
    assert (Hst : In RStart os) by exact (Hre os [] eq_refl).
    destruct (p_decoder p) as [s|] eqn:Ep; [|exfalso; apply Hde, Hst].
    destruct Hde as (dos & D0 & D1 & D2 & D3 & D4 & D5).
    assert (Ho : orders_typed 3 (os ++ [RLoop]) = orders_typed 3 os) by (rewrite orders_typed_app; apply app_nil_r).
    destruct (decoder_total (os ++ [RLoop]) (dos ++ [OReceive t]) (h ++ h1) Hd Hs Hl Hat) as (s' & es' & Hrun & Hout & _ & Hle).
    { apply follows_one; [right; exists t; reflexivity|reflexivity|exact D0]. }
    { exact (HI_ok _ _ _ _ HH1). }
    { rewrite Ho, queued_app, Hq1, app_nil_r. exact Hq. }
    { rewrite filter_app, D2. cbn [filter is_receive]. rewrite ticks_app, Ht1, !map_app. reflexivity. }
    destruct (run_last _ _ _ _ _ _ _ D1 Hrun) as (b & e' & Hstep & ->). cbn [step] in Hstep. apply bind_inv in Hstep.
    destruct Hstep as ([] & s2 & e1 & e2 & H1 & H2 & ->). unfold ret in H2. injection H2 as <- <- <-.
    unfold call_decoder. rewrite H1. cbn [defined rdo]. rewrite app_nil_r in Hout. rewrite (outside_app _ _ Hout). cbn [rdo].
    destruct (p_fifo p) as [|q r] eqn:Ef.
    + eexists _, _. split; [reflexivity|]. intros s3 Hs3. cbn [p_decoder] in Hs3. injection Hs3 as <-. exact Hle.
    + assert (Hql : (length q <= 18)%nat).
      { assert (Hall := all_packets_ok _ _ Hok Hty). rewrite Hfi in Hall. rewrite Forall_forall in Hall.
        destruct (Hall q) as (_ & ? & _); [apply in_or_app; right; left; reflexivity|lia]. }
      destruct (bytes_total _ _ _ _ _ q HR1 HH1 Hql) as (tx' & ->). cbn [defined rdo].
      eexists _, _. split; [reflexivity|]. intros s3 Hs3. cbn [p_decoder] in Hs3. injection Hs3 as <-. exact Hle.
  - destruct (typed_defined (address_after 3 os) c) as (ps & Hps); [apply Hd, in_or_app; right; left; reflexivity|lia|].
    rewrite Had, Hps. cbn [defined rdo]. eexists _, _. split; [reflexivity|]. exact Hidle.
Qed.

Lemma repl_run_then : forall os q p out o p1 x, repl_run os q = Done (p, out) -> repl_step o p = Done (p1, x) ->
  repl_run (os ++ [o]) q = Done (p1, rcat out x).
Proof.
  induction os as [|o0 os IH]; intros q p out o p1 x H1 H2.
  - cbn [repl_run] in H1. injection H1 as <- <-. cbn [List.app repl_run]. rewrite H2. cbn [rdo]. unfold rcat, nothing. cbn. rewrite !app_nil_r. destruct x; reflexivity.
  - cbn [List.app repl_run] in *. destruct (repl_step o0 q) as [[q1 y]| |]; try discriminate H1. cbn [rdo] in *.
    destruct (repl_run os q1) as [[q2 z]| |] eqn:E; try discriminate H1. cbn [rdo] in H1. apply Done_inj in H1. injection H1 as -> <-.
    rewrite (IH _ _ _ _ _ _ E H2). cbn [rdo]. unfold rcat. cbn. rewrite !app_assoc. reflexivity.
Qed.

Lemma ready_app : forall a b, ready_first (a ++ b) -> ready_first a.
Proof. intros a b H x y ->. apply (H x (y ++ b)). rewrite <- app_assoc. reflexivity. Qed.
Lemma attentive_app : forall a b, attentive (a ++ b) -> attentive a.
Proof. intros a b H x y z ->. apply (H x y (z ++ b)). rewrite <- !app_assoc. reflexivity. Qed.

Lemma total_session : forall os, every_command documented os -> every_command short_address os -> every_command leaves_cv1 os ->
  ready_first os -> attentive os ->
  exists p out h popped pss, repl_run os repl0 = Done (p, out) /\ session os p out h popped pss /\ idle_queue p.
Proof.
  induction os as [|o os IH] using rev_ind; intros Hd Hs Hl Hre Hat.
  - exists repl0, nothing, [], [], []. split; [reflexivity|]. split; [exact session0|]. intros s H. discriminate H.
  - destruct (IH (every_app _ _ _ Hd) (every_app _ _ _ Hs) (every_app _ _ _ Hl) (ready_app _ _ Hre) (attentive_app _ _ Hat))
      as (p & out & h & popped & pss & Hrun & HS & Hi).
    destruct (total_step os o p out h popped pss Hd Hs Hl Hre Hat HS Hi) as (p1 & x & Hstep & Hi1).
    destruct (session_step os o p out h popped pss p1 x Hd Hs HS Hstep) as (h' & popped1 & pss1 & HS1 & _).
    { intros s Hp. specialize (Hi1 s Hp). lia. }
    exists p1, (rcat out x), (h ++ h'), popped1, pss1. split; [exact (repl_run_then os _ p out o p1 x Hrun Hstep)|]. auto.
Qed.

(** Defined sessions stay inside the array *)
Lemma call_inside : forall (A : Type) (f : M (I := Z -> Z) A) s a s' es, call_decoder f s = Done (a, s', es) -> Forall inside es.
Proof.
  intros A f s a s' es H. unfold call_decoder, rdo, defined in H. destruct (f s) as [[[a1 s1] e1]|]; [|discriminate].
  destruct (existsb outside e1) eqn:E; [discriminate|]. injection H as <- <- <-. apply Forall_forall. intros e He.
  assert (Ho : outside e = false).
  { destruct (outside e) eqn:Eo; [|reflexivity]. rewrite <- E. symmetry. apply existsb_exists. exists e. auto. }
  destruct e; try exact Logic.I; cbn [outside inside] in *; apply negb_false_iff, in_array_spec in Ho; exact Ho.
Qed.

Lemma rdo_inv : forall (A B : Type) (x : rres A) (k : A -> rres B) b, rdo x k = Done b -> exists a, x = Done a /\ k a = Done b.
Proof. intros A B [a|r|] k b H; try discriminate H. exists a. auto. Qed.

Lemma step_inside : forall o p p' out, repl_step o p = Done (p', out) -> Forall inside (o_calls out).
Proof.
  intros o p p' out H. destruct o; cbn [repl_step] in H.
  - destruct (p_decoder p); [injection H as <- <-; constructor|]. apply rdo_inv in H. destruct H as ([[u s] es] & E & H).
    apply call_inside in E. injection H as <- <-. exact E.
  - destruct (p_decoder p) as [s|]; [|injection H as <- <-; constructor]. apply rdo_inv in H. destruct H as ([[u s'] es] & E & H).
    apply call_inside in E. injection H as <- <-. exact E.
  - apply rdo_inv in H. destruct H as ([[t tx] ev] & _ & H). destruct (p_decoder p) as [s|]; [|discriminate].
    apply rdo_inv in H. destruct H as ([[u s'] es] & E & H). apply call_inside in E.
    destruct (p_fifo p) as [|q r]; [injection H as <- <-; exact E|]. apply rdo_inv in H. destruct H as (tx' & _ & H). injection H as <- <-. exact E.
  - apply rdo_inv in H. destruct H as (ps & _ & H). injection H as <- <-. constructor.
Qed.

Lemma run_inside : forall os p p' out, repl_run os p = Done (p', out) -> Forall inside (o_calls out).
Proof.
  induction os as [|o os IH]; intros p p' out H; cbn [repl_run] in H; [injection H as <- <-; constructor|].
  destruct (repl_step o p) as [[p1 a]| |] eqn:E; try discriminate. cbn [rdo] in H.
  destruct (repl_run os p1) as [[p2 b]| |] eqn:E2; try discriminate. cbn [rdo] in H. injection H as <- <-. cbn [rcat o_calls].
  apply Forall_app. split; [exact (step_inside _ _ _ _ E)|exact (IH _ _ _ E2)].
Qed.

Theorem repl_defined : forall os, every_command documented os -> every_command short_address os -> every_command leaves_cv1 os ->
  ready_first os -> attentive os -> exists p out, repl_run os repl0 = Done (p, out) /\ Forall inside (o_calls out) /\ keeps_up os.
Proof.
  intros os Hd Hs Hl Hre Hat. destruct (total_session os Hd Hs Hl Hre Hat) as (p & out & _ & _ & _ & Hrun & _).
  exists p, out. split; [exact Hrun|]. split; [exact (run_inside _ _ _ _ Hrun)|]. intros os1 os2 p1 out1 s -> Hrun1 Hp.
  destruct (total_session os1 (every_app _ _ _ Hd) (every_app _ _ _ Hs) (every_app _ _ _ Hl) (ready_app _ _ Hre) (attentive_app _ _ Hat))
    as (p2 & out2 & _ & _ & _ & Hrun2 & _ & Hi).
  rewrite Hrun1 in Hrun2. apply Done_inj in Hrun2. injection Hrun2 as -> ->. specialize (Hi s Hp). lia.
Qed.
