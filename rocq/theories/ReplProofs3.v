(** Invariant of a session of the example examples/repl *)
From Verif Require Import Prelude Address Packets ZBits SpecCodec SpecTx TxProofs Tx CodecProofs CodecProofs2 RxState Rx RxLogic SpecRx
  RxBitProofs RxBitProofs2 RxBitProofs3 RxBitProofs4 RxBitProofs5 PreemptProofs2 SpecExec SpecConf SpecCv
  SpecLayout LayoutProofs LayoutProofs2 LayoutProofs3 LayoutProofs4 LayoutProofs5 LayoutProofs6 SpecLayout2 LayoutProofs7
  LayoutProofs8 Repl SpecRepl ReplProofs ReplProofs2.
Local Ltac Zify.zify_post_hook ::= Z.div_mod_to_equations.

Lemma Done_inj : forall (A : Type) (a b : A), Done a = Done b -> a = b.
Proof. congruence. Qed.

(** The calls of the decoder follow the steps of the tasks *)
Definition beat (o : rstep) : list bool := match o with RLoop => [true] | RExecute => [false] | _ => [] end.
Definition follows (os : list rstep) (dos : list op) : Prop :=
  Forall (fun o => o = OExecute \/ exists t, o = OReceive t) dos /\
  exists pre post, os = pre ++ RStart :: post /\ map is_receive dos = flat_map beat post.

Lemma follows_none : forall os dos o, beat o = [] -> follows os dos -> follows (os ++ [o]) dos.
Proof.
  intros os dos o Ho (H & pre & post & -> & Hm). split; [exact H|]. exists pre, (post ++ [o]). split; [rewrite <- app_assoc; reflexivity|].
  rewrite flat_map_app. cbn [flat_map]. rewrite Ho, !app_nil_r. exact Hm.
Qed.
Lemma follows_one : forall os dos o d, d = OExecute \/ (exists t, d = OReceive t) -> beat o = [is_receive d] -> follows os dos ->
  follows (os ++ [o]) (dos ++ [d]).
Proof.
  intros os dos o d Hd Ho (H & pre & post & -> & Hm). split; [apply Forall_app; split; [exact H|constructor; [exact Hd|constructor]]|].
  exists pre, (post ++ [o]). split; [rewrite <- app_assoc; reflexivity|].
  rewrite flat_map_app, map_app, Hm. cbn [flat_map map]. rewrite Ho, app_nil_r. reflexivity.
Qed.

Definition decoding (os : list rstep) (h : list entry) (d : option (st (Z -> Z))) (out : rout) : Prop :=
  match d with
  | None => ticks h = [] /\ o_calls out = [] /\ o_done out = [] /\ ~ In RStart os
  | Some s => exists dos, follows os dos /\ run repl_env (OInit :: dos) (st0 repl_cvs) = Ok (tt, s, o_calls out) /\
      filter is_receive dos = map OReceive (map fst (ticks h)) /\ ~ In ODisable dos /\
      never_full dos listener0 /\ SpecRx.taken dos listener0 = o_done out
  end.

Record session (os : list rstep) (p : repl) (out : rout) (h : list entry) (popped : list (list Z)) (pss : list (list (list Z))) : Prop := {
  ss_station : exists a ws, R (p_station p) a /\ HI repl_config h a ws;
  ss_addr : p_addr p = Addr (address_after 3 os) ATShort false;
  ss_typed : Forall2 packets_for (orders_typed 3 os) pss;
  ss_fifo : concat pss = popped ++ p_fifo p;
  ss_lost : merged (queued h) (o_lost out) popped;
  ss_decoder : decoding os h (p_decoder p) out }.

Lemma repl_config_ok : config_ok repl_config.
Proof. unfold config_ok. cbn. lia. Qed.

Lemma session0 : session [] repl0 nothing [] [] [].
Proof.
  split; [|cbn; auto; try constructor ..].
  unfold repl0. cbn [p_station].
  pose proof (sim_step (TInit repl_config) (tx_init_state 4) atx0 R_init) as H.
  rewrite (init_ok repl_config repl_config_ok) in H. cbn [tx_step] in H.
  destruct (tx_init repl_config (tx_init_state 4)) as [s|] eqn:E; [|discriminate].
  cbn [rbind sim] in H. exists (Atx [] idle_halves true 0 repl_config), []. split; [apply H|apply HI_init].
Qed.

Lemma packets_for_ok : forall o ps, order_ok o -> packets_for o ps -> Forall packet_ok ps.
Proof.
  intros o ps Ho Hp. rewrite (packets_of_order o ps Ho Hp). apply Forall_forall. intros q Hq. apply repeat_spec in Hq. subst q.
  destruct o as [n d]. destruct Ho as [Hn Hd]. cbn [fst snd] in *.
  destruct (generate_describes n d Hn Hd) as (p & _ & -> & Hlen & Hmax & Hby & _ & _ & Hx).
  unfold packet_of. cbn [fst snd]. split; [exact Hby|]. split; [|split; [exact Hx|]].
  - split; [|exact Hmax]. rewrite Hlen. unfold wire_head. destruct (n <=? 127); destruct d; cbn [length payload]; lia.
  - unfold frame, wire_head. destruct (n <=? 127) eqn:El; cbn [List.app is_logon]; apply Z.eqb_neq; lia.
Qed.

Lemma all_packets_ok : forall os pss, Forall order_ok os -> Forall2 packets_for os pss -> Forall packet_ok (concat pss).
Proof.
  intros os pss Ho H. induction H as [|o ps os pss Hp H IH]; [constructor|]. inversion Ho; subst. cbn [concat].
  apply Forall_app. split; [apply (packets_for_ok o); assumption|auto].
Qed.

Lemma merged_In_left : forall (A : Type) a b l (x : A), merged a b l -> In x a -> In x l.
Proof. intros A a b l x H. induction H; cbn [In]; intuition. Qed.

Lemma never_full_snoc : forall dos o l, never_full dos l -> (length (l_queue (listen o (listen_all dos l))) < 31)%nat ->
  never_full (dos ++ [o]) l.
Proof.
  intros dos o l H Ho os1 os2 He. destruct os2 as [|x os2] using rev_ind.
  - rewrite app_nil_r in He. subst os1. rewrite listen_all_app. exact Ho.
  - clear IHos2. rewrite app_assoc in He. apply app_inj_tail in He. destruct He as [He _]. apply (H os1 os2). exact He.
Qed.

Lemma repl_run_snoc : forall os o p p1 out1, repl_run (os ++ [o]) p = Done (p1, out1) ->
  exists p0 out0 x, repl_run os p = Done (p0, out0) /\ repl_step o p0 = Done (p1, x) /\
    out1 = rcat out0 x.
Proof.
  induction os as [|o0 os IH]; intros o p p1 out1 H.
  - cbn [List.app repl_run] in H. destruct (repl_step o p) as [[q x]| |] eqn:E; try discriminate. cbn [rdo] in H.
    inversion H; subst. exists p, nothing, x. split; [reflexivity|]. split; [exact E|].
    unfold rcat, nothing. cbn. rewrite !app_nil_r. destruct x; reflexivity.
  - cbn [List.app repl_run] in *. destruct (repl_step o0 p) as [[q x]| |]; try discriminate. cbn [rdo] in *.
    destruct (repl_run (os ++ [o]) q) as [[q2 x2]| |] eqn:E; try discriminate. cbn [rdo] in H.
    destruct (IH o q q2 x2 E) as (p0 & out0 & y & H1 & H2 & H3). inversion H; subst.
    exists p0, (rcat x out0), y. rewrite H1. cbn [rdo]. split; [reflexivity|]. split; [exact H2|].
    unfold rcat. cbn. rewrite !app_assoc. reflexivity.
Qed.

Lemma step_receive : forall t s s' es, receive repl_env t s = Ok (tt, s', es) -> step repl_env (OReceive t) s = Ok (false, s', es).
Proof. intros t s s' es H. cbn [step]. unfold bind. rewrite H. unfold ret. rewrite app_nil_r. reflexivity. Qed.

Lemma taken_of_execute : forall l s s' b es, Rl l s -> execute repl_env s = Ok (b, s', es) ->
  (if l_fresh l then [] else firstn 1 (l_queue l)) =
  firstn (length (r_deque (rxs s)) - length (r_deque (rxs s'))) (r_deque (rxs s)).
Proof.
  intros l s s' b es (_ & Hq & Hf & _) H. apply execute_effect in H. rewrite Hq in *. rewrite Hf in H.
  destruct H as [([H|H] & _ & -> & _)|(H & Hne & Hc)].
  - rewrite H, Hq, Nat.sub_diag. reflexivity.
  - rewrite Hq, H. destruct (l_fresh l); reflexivity.
  - rewrite H. injection Hc as _ Hc _. rewrite Hc. destruct (l_queue l) as [|x r]; [contradiction|]. cbn [tl length].
    replace (S (length r) - length r)%nat with 1%nat by lia. reflexivity.
Qed.

(** How a step changes FIFO and history *)
Definition grown (o : rstep) (p p1 : repl) (x : rout) (h' : list entry) : Prop :=
  match o with
  | RStart | RExecute => h' = [] /\ o_lost x = [] /\ p_fifo p1 = p_fifo p
  | RType c => h' = [] /\ o_lost x = [] /\ exists ps, repl_packets (p_addr p) c = Ok ps /\ p_fifo p1 = p_fifo p ++ ps
  | RLoop => exists e, queued e = [] /\ length (ticks e) = 1%nat /\
      match p_fifo p with
      | [] => p_fifo p1 = [] /\ h' = e /\ o_lost x = []
      | q :: r => p_fifo p1 = r /\ ((h' = e ++ [Queued q] /\ o_lost x = []) \/ (h' = e ++ [Refused q] /\ o_lost x = [q]))
      end
  end.

Lemma session_step : forall os o p out h popped pss p1 x,
  every_command documented (os ++ [o]) -> every_command short_address (os ++ [o]) ->
  session os p out h popped pss -> repl_step o p = Done (p1, x) ->
  (forall s, p_decoder p1 = Some s -> (length (r_deque (rxs s)) < 31)%nat) ->
  exists h' popped1 pss1, session (os ++ [o]) p1 (rcat out x) (h ++ h') popped1 pss1 /\ grown o p p1 x h'.
Proof.
  intros os o p out h popped pss p1 x Hd Hs HS H Hup.
  assert (Hds : every_command documented os) by (intros c Hc; apply Hd, in_or_app; left; exact Hc).
  assert (Hss : every_command short_address os) by (intros c Hc; apply Hs, in_or_app; left; exact Hc).
  assert (H3 : 0 <= 3 <= 127) by lia. destruct (typed_ok os 3 Hds Hss H3) as [Hok Han]. clear H3.
  destruct HS as [(a & ws & HR & HH) Had Hty Hfi Hlo Hde].
  assert (Hot : forall r, match r with RType _ => False | _ => True end -> orders_typed 3 (os ++ [r]) = orders_typed 3 os /\
     address_after 3 (os ++ [r]) = address_after 3 os).
  { intros r Hr. rewrite orders_typed_app, address_after_app. destruct r; try contradiction; cbn; rewrite app_nil_r; auto. }
  destruct o as [| | |c]; cbn [repl_step] in H.
  - (* start *)
    destruct (Hot RStart Logic.I) as [Ho1 Ho2]. destruct (p_decoder p) as [s|] eqn:Ep.
    + inversion H; subst. exists [], popped, pss. rewrite app_nil_r. split; [|cbn; auto]. split; rewrite ?Ho1, ?Ho2; auto.
      * exists a, ws. auto.
      * cbn [rcat nothing o_lost]. rewrite app_nil_r. exact Hlo.
      * unfold decoding in *. rewrite Ep. cbn [rcat nothing o_calls o_done o_lost]. rewrite !app_nil_r.
        destruct Hde as (dos & D0 & Hde). exists dos. split; [apply follows_none; [reflexivity|exact D0]|exact Hde].
    + destruct (call_decoder (init repl_env) (st0 repl_cvs)) as [[[u s] es]| |] eqn:Ec; [|discriminate H|discriminate H]. cbn [rdo] in H.
      apply Done_inj in H. injection H as <- <-. destruct Hde as (Ht & Hc & Hdn & _). exists [], popped, pss. rewrite app_nil_r. split; [|cbn; auto].
      split; rewrite ?Ho1, ?Ho2; cbn [p_station p_addr p_fifo p_decoder]; auto.
      * exists a, ws. auto.
      * cbn [rcat nothing o_lost]. rewrite app_nil_r. exact Hlo.
      * unfold decoding. exists []. cbn [rcat o_calls o_done o_lost]. rewrite Hc, Hdn, Ht. split; [|split; [|split; [|split; [|split]]]]; auto.
        -- split; [constructor|]. exists os, []. split; reflexivity.
        -- apply decoder_call in Ec. cbn [run step]. unfold bind. destruct u. rewrite Ec. unfold ret. cbn [List.app]. rewrite !app_nil_r. reflexivity.
        -- intros [|] os2 He; [cbn; lia|discriminate].
  - (* execute *)
    destruct (Hot RExecute Logic.I) as [Ho1 Ho2]. destruct (p_decoder p) as [s|] eqn:Ep.
    + destruct (call_decoder (execute repl_env) s) as [[[b s1] es]| |] eqn:Ec; try discriminate. cbn [rdo] in H.
      inversion H; subst. destruct Hde as (dos & D0 & D1 & D2 & D3 & D4 & D5). apply decoder_call in Ec.
      pose proof (run_refines repl_env _ _ _ _ _ (Rl0 repl_cvs) D1) as HRl. cbn [listen_all fold_left listen] in HRl.
      pose proof (step_refines repl_env OExecute _ s b s1 es HRl Ec) as HRl1.
      exists [], popped, pss. rewrite app_nil_r. split; [|cbn; auto]. split; rewrite ?Ho1, ?Ho2; cbn [p_station p_addr p_fifo p_decoder]; auto.
      * exists a, ws. auto.
      * cbn [rcat nothing o_lost]. rewrite app_nil_r. exact Hlo.
      * unfold decoding. exists (dos ++ [OExecute]). cbn [rcat o_calls o_done o_lost]. split; [|split; [|split; [|split; [|split]]]].
        -- apply follows_one; [left; reflexivity|reflexivity|exact D0].
        -- exact (run_then dos repl_cvs s _ OExecute b s1 es D1 Ec).
        -- rewrite filter_app. cbn [filter is_receive]. rewrite app_nil_r. exact D2.
        -- intros Hin. apply in_app_or in Hin. destruct Hin as [Hin|[Hin|[]]]; [exact (D3 Hin)|discriminate].
        -- apply never_full_snoc; [exact D4|]. specialize (Hup s1 eq_refl). destruct HRl1 as (_ & Hq & _). rewrite Hq in Hup. exact Hup.
        -- rewrite taken_app, D5. cbn [SpecRx.taken]. rewrite app_nil_r. f_equal. exact (taken_of_execute _ s s1 b es HRl Ec).
    + inversion H; subst. exists [], popped, pss. rewrite app_nil_r. split; [|cbn; auto]. split; rewrite ?Ho1, ?Ho2; auto.
      * exists a, ws. auto.
      * cbn [rcat nothing o_lost]. rewrite app_nil_r. exact Hlo.
      * unfold decoding in *. rewrite Ep. cbn [rcat nothing o_calls o_done o_lost]. rewrite !app_nil_r.
        destruct Hde as (D1 & D2 & D3 & D4). split; [exact D1|]. split; [exact D2|]. split; [exact D3|].
        intros Hin. apply in_app_or in Hin. destruct Hin as [Hin|[Hin|[]]]; [exact (D4 Hin)|discriminate Hin].
  - (* loop *)
    destruct (Hot RLoop Logic.I) as [Ho1 Ho2]. destruct (transmit (p_station p)) as [[[t tx] ev]|] eqn:Et; [|discriminate].
    cbn [defined rdo] in H. destruct (p_decoder p) as [s|] eqn:Ep; [|discriminate].
    destruct (call_decoder (receive repl_env t) s) as [[[[] s1] es]| |] eqn:Ec; try discriminate. cbn [rdo] in H.
    destruct Hde as (dos & D0 & D1 & D2 & D3 & D4 & D5). apply decoder_call, step_receive in Ec.
    pose proof (run_refines repl_env _ _ _ _ _ (Rl0 repl_cvs) D1) as HRl. cbn [listen_all fold_left listen] in HRl.
    pose proof (step_refines repl_env (OReceive t) _ s _ s1 es HRl Ec) as HRl1.
    destruct (station_transmit _ h a ws _ _ _ _ HR HH Et) as (a1 & ws1 & h1 & HR1 & HH1 & Hq1 & Ht1).
    assert (HD : forall h2 lost, ticks h2 = [] -> p_decoder p1 = Some s1 ->
               decoding (os ++ [RLoop]) ((h ++ h1) ++ h2) (Some s1) (rcat out (Rout es lost []))).
    { intros h2 lost Hh2 Hp1. unfold decoding. exists (dos ++ [OReceive t]). cbn [rcat o_calls o_done o_lost]. split; [|split; [|split; [|split; [|split]]]].
      - apply follows_one; [right; exists t; reflexivity|reflexivity|exact D0].
      - exact (run_then dos repl_cvs s _ (OReceive t) false s1 es D1 Ec).
      - rewrite filter_app, D2. cbn [filter is_receive]. rewrite !ticks_app, Ht1, Hh2, app_nil_r. rewrite !map_app. reflexivity.
      - intros Hin. apply in_app_or in Hin. destruct Hin as [Hin|[Hin|[]]]; [exact (D3 Hin)|discriminate].
      - apply never_full_snoc; [exact D4|]. specialize (Hup s1 Hp1). destruct HRl1 as (_ & Hq & _). rewrite Hq in Hup. exact Hup.
      - rewrite taken_app, D5. cbn [SpecRx.taken]. rewrite !app_nil_r. reflexivity. }
    destruct (p_fifo p) as [|q r] eqn:Ef.
    + inversion H; subst. exists (h1 ++ []), popped, pss. rewrite (app_assoc h h1 []).
      split; [|cbn [grown]; exists h1; rewrite Ef, app_nil_r, Ht1; cbn; auto].
      split; rewrite ?Ho1, ?Ho2; cbn [p_station p_addr p_fifo p_decoder]; auto.
      * exists a1, ws1. rewrite app_nil_r. auto.
      * cbn [rcat nothing o_lost]. rewrite !app_nil_r, queued_app, Hq1, app_nil_r. exact Hlo.
    + destruct (tx_bytes q tx) as [tx1|] eqn:Eb; [|discriminate]. cbn [defined rdo] in H. inversion H; subst.
      assert (Hqok : packet_ok q).
      { assert (Hall := all_packets_ok _ _ Hok Hty). rewrite Hfi in Hall. rewrite Forall_forall in Hall. apply Hall.
        apply in_or_app. right. left. reflexivity. }
      assert (Hql : (length q <= 18)%nat) by (destruct Hqok as (_ & ? & _); lia).
      destruct (station_bytes _ _ a1 ws1 tx q tx1 HR1 HH1 Hql Eb) as (a2 & ws2 & HR2 & HH2).
      exists (h1 ++ [if (tx_size tx =? 3)%nat then Refused q else Queued q]), (popped ++ [q]), pss. rewrite (app_assoc h h1 _).
      split; [|cbn [grown]; exists h1; rewrite Ef, Ht1; change tx_deque_size with 3%nat; destruct (tx_size tx =? 3)%nat; cbn; auto 10].
      split; rewrite ?Ho1, ?Ho2; cbn [p_station p_addr p_fifo p_decoder]; auto.
      * exists a2, ws2. auto.
      * rewrite <- app_assoc. exact Hfi.
      * cbn [rcat o_lost]. rewrite !queued_app, Hq1, app_nil_r. change tx_deque_size with 3%nat.
        destruct (tx_size tx =? 3)%nat; cbn [queued flat_map List.app]; rewrite app_nil_r.
        -- apply merged_snoc_right. exact Hlo.
        -- apply merged_snoc_left. exact Hlo.
      * apply HD; [|reflexivity]. destruct (tx_size tx =? 3)%nat; reflexivity.
  - (* type *)
    destruct (repl_packets (p_addr p) c) as [ps|] eqn:Ec; [|discriminate]. cbn [defined rdo] in H. inversion H; subst.
    assert (Hc : In (RType c) (os ++ [RType c])) by (apply in_or_app; right; left; reflexivity).
    rewrite Had in Ec. destruct (meant_packets c _ ps (Hd c Hc) Han Ec) as (pss1 & Hp1 & ->).
    exists [], popped, (pss ++ pss1). rewrite app_nil_r.
    split; [|cbn [grown p_fifo]; split; [reflexivity|]; split; [reflexivity|]; exists (concat pss1); rewrite Had; auto].
    split; cbn [p_station p_addr p_fifo p_decoder].
    + exists a, ws. auto.
    + rewrite address_after_app, Had. cbn [address_after]. destruct c; reflexivity.
    + rewrite orders_typed_app. cbn [orders_typed]. rewrite app_nil_r. apply Forall2_app; assumption.
    + rewrite concat_app, Hfi, app_assoc. reflexivity.
    + cbn [rcat nothing o_lost]. rewrite app_nil_r. exact Hlo.
    + unfold decoding in *. cbn [rcat nothing o_calls o_done]. rewrite !app_nil_r. destruct (p_decoder p) as [s|].
      * destruct Hde as (dos & D0 & Hde). exists dos. split; [apply follows_none; [reflexivity|exact D0]|exact Hde].
      * destruct Hde as (D1 & D2 & D3 & D4). split; [exact D1|]. split; [exact D2|]. split; [exact D3|].
        intros Hin. apply in_app_or in Hin. destruct Hin as [Hin|[Hin|[]]]; [exact (D4 Hin)|discriminate Hin].
Qed.

Lemma session_run : forall os p out, every_command documented os -> every_command short_address os ->
  repl_run os repl0 = Done (p, out) -> keeps_up os -> exists h popped pss, session os p out h popped pss.
Proof.
  induction os as [|o os IH] using rev_ind; intros p out Hd Hs H Hk.
  - inversion H; subst. exists [], [], []. exact session0.
  - apply repl_run_snoc in H. destruct H as (p0 & out0 & x & H1 & H2 & ->).
    destruct (IH p0 out0) as (h & popped & pss & HS); auto.
    + intros c Hc. apply Hd, in_or_app. left. exact Hc.
    + intros c Hc. apply Hs, in_or_app. left. exact Hc.
    + intros a b q y s He Hr Hq. refine (Hk a (b ++ [o]) q y s _ Hr Hq). rewrite He, app_assoc. reflexivity.
    + destruct (session_step os o p0 out0 h popped pss p x Hd Hs HS H2) as (h' & popped1 & pss1 & HS1 & _);
        [|exists (h ++ h'), popped1, pss1; exact HS1].
      intros s Hp. refine (Hk (os ++ [o]) [] p (rcat out0 x) s _ _ Hp); [rewrite app_nil_r; reflexivity|].
      clear - H1 H2. revert H1. generalize repl0 as q. revert p0 out0 H2. induction os as [|o0 os IH]; intros p0 out0 H2 q H1.
      * inversion H1; subst. cbn [List.app repl_run]. rewrite H2. cbn [rdo]. unfold rcat, nothing. cbn. rewrite !app_nil_r. destruct x; reflexivity.
      * cbn [List.app repl_run] in *. destruct (repl_step o0 q) as [[q1 y]| |]; try discriminate. cbn [rdo] in *.
        destruct (repl_run os q1) as [[q2 z]| |] eqn:E; try discriminate. cbn [rdo] in H1. inversion H1; subst.
        rewrite (IH _ _ H2 q1 E). cbn [rdo]. unfold rcat. cbn. rewrite !app_assoc. reflexivity.
Qed.
