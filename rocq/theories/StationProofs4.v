(** Station and decoder composed *)
From Verif Require Import Prelude Address ZBits SpecCodec SpecTx TxProofs Tx RxState Rx CodecProofs CodecProofs2 RxLogic SpecRx
  RxBitProofs RxBitProofs2 RxBitProofs3 RxBitProofs4 RxBitProofs5 SpecExec SpecConf SpecCv SpecLogon SpecBidi SpecSafe SafeProofs2
  SpecLayout LayoutProofs4 LayoutProofs5 LayoutProofs6 SpecLayout2 LayoutProofs7 LayoutProofs8 ReplProofs ReplProofs3
  SpecStation StationProofs StationProofs2 StationProofs3.

  Lemma order_complete : forall o ps, order_ok o -> packets_for o ps -> Forall complete ps.
  Proof.
    intros [n d] ps [Hn Hd] (p & Hp & ->). cbn [fst snd] in *. apply Forall_forall. intros q Hq. apply repeat_spec in Hq. subst q.
    apply generated_complete. exact (gen_loco n d p Hn Hd Hp).
  Qed.

(** Orders given at leisure are on the track, all of them, once *)
(** What is finished does not depend on what follows *)
Lemma finished_app : forall c ps qs n, (n <= space c ps)%nat -> finished c (ps ++ qs) n = finished c ps n.
Proof.
  intros c ps qs. induction ps as [|p ps IH]; intros n Hn.
  - cbn in Hn. replace n with 0%nat by lia. destruct qs as [|q qs]; [reflexivity|]. cbn [List.app finished]. fold (halves c q).
    assert (Hl : (0 < length (halves c q))%nat) by (destruct q; cbn [halves]; unfold packet_halves, idle_halves; rewrite halves_length; lia). destruct (0 <? length (halves c q))%nat eqn:El; [reflexivity|]. apply Nat.ltb_ge in El. lia.
  - cbn [List.app finished]. fold (halves c p). destruct (n <? length (halves c p))%nat; [reflexivity|]. f_equal. apply IH.
    unfold space in *. cbn [flat_map] in Hn. rewrite app_length in Hn. unfold on_track in Hn at 1. rewrite app_length in Hn.
    rewrite <- (map_length fst), alternate_fst in Hn. fold (halves c p) in Hn. destruct (cfg_bidi c); cbn [length SpecTx.cutout] in Hn; lia.
Qed.

(** With [k0] intervals before, and [j] more behind *)
Lemma orders_tracked_behind : forall c os pss ks k0 n j, config_ok c -> Forall order_ok os -> Forall2 packets_for os pss ->
  length ks = length os -> Forall (fun k => (782 < k)%nat) ks -> (782 < n)%nat ->
  exists h xs tx, tx_run (TInit c :: repeat TTransmit k0 ++ flat_map calls (combine pss ks) ++ repeat TTransmit (n + j)) (tx_init_state 4)
                  = Ok ((None, []) :: xs, tx) /\ intervals xs = ticks h /\ history_ok c h /\
    (forall bs, In bs (queued h) -> packet_ok bs /\ complete bs) /\
    forall done left, finished c (None :: started h) (length (ticks h) - j) = done ++ left -> (length left <= 1)%nat ->
      filter not_idle done = concat pss.
Proof.
    intros c os pss ks k0 n j Hc Hos Hp Hlen Hks Hn. rewrite repeat_app.
    pose proof (all_packets_ok os pss Hos Hp) as Hok.
    assert (Hcomp : Forall complete (concat pss)).
    { clear - Hos Hp. induction Hp as [|o ps os pss Ho Hp IH]; [constructor|]. inversion Hos as [|? ? H1 H2]; subst.
      cbn [concat]. apply Forall_app. split; [exact (order_complete o ps H1 Ho)|exact (IH H2)]. }
    assert (H18 : Forall (fun bs => (length bs <= 18)%nat) (concat pss)).
    { eapply Forall_impl; [|exact Hok]. intros bs (_ & Hl & _). lia. }
    assert (Hl2 : length pss = length ks) by (rewrite Hlen; clear - Hp; induction Hp; cbn [length]; congruence).
    set (lead := match k0 with 0%nat => [] | S _ => [(@nil (list Z), k0)] end).
    assert (Hlead : flat_map calls lead = repeat TTransmit k0 /\ concat (map fst lead) = [] /\ Forall leisurely lead /\
      Forall (fun g => Forall (fun bs => (length bs <= 18)%nat) (fst g)) lead).
    { unfold lead. destruct k0 as [|k0]; [repeat split; constructor|]. cbn [flat_map map concat fst List.app]. rewrite app_nil_r.
      split; [reflexivity|]. split; [reflexivity|]. split; constructor; try constructor; cbn [fst snd length]; lia. }
    destruct Hlead as (Hld & Hlc & Hl1 & Hl18). rewrite <- Hld, app_assoc, <- flat_map_app. set (gs0 := combine pss ks). set (gs := lead ++ gs0).
    assert (Hfst : concat (map fst gs) = concat pss).
    { unfold gs. rewrite map_app, concat_app, Hlc. cbn [List.app]. f_equal. unfold gs0. clear - Hl2. revert ks Hl2. induction pss as [|x pss IH]; intros [|k ks] H; try discriminate H; [reflexivity|].
      cbn [combine map fst]. rewrite IH; [reflexivity|]. cbn in H. lia. }
    assert (Hg : Forall leisurely gs /\ Forall (fun g => Forall (fun bs => (length bs <= 18)%nat) (fst g)) gs).
    { unfold gs. rewrite !Forall_app. cut (Forall leisurely gs0 /\ Forall (fun g => Forall (fun bs => (length bs <= 18)%nat) (fst g)) gs0); [tauto|].
      split; apply Forall_forall; intros [ps k] Hin; unfold gs0 in Hin.
      - pose proof (in_combine_l _ _ _ _ Hin) as Hpi. apply in_combine_r in Hin. rewrite Forall_forall in Hks.
        specialize (Hks k Hin). assert (length ps <= 2)%nat.
        { clear - Hp Hpi. induction Hp as [|o ps' os pss Ho Hp IH]; [destruct Hpi|]. destruct Hpi as [->|Hpi]; [|exact (IH Hpi)].
          destruct Ho as (p & _ & ->). rewrite repeat_length. destruct (is_write (snd o)); lia. }
        unfold leisurely. cbn [fst snd]. lia.
      - apply in_combine_l in Hin. cbn [fst]. rewrite Forall_forall in *. intros bs Hb. apply H18.
        apply in_concat. exists ps. auto. }
    destruct Hg as [Hg1 Hg2].
    set (ops := flat_map calls gs ++ repeat TTransmit n ++ repeat TTransmit j).
    assert (Hpl : Forall plain_op ops).
    { unfold ops. rewrite <- repeat_app. apply Forall_app. split.
      - apply Forall_forall. intros o Ho. apply in_flat_map in Ho. destruct Ho as (g & Hgi & Ho).
        rewrite Forall_forall in Hg2. specialize (Hg2 g Hgi). unfold calls in Ho. apply in_app_or in Ho. destruct Ho as [Ho|Ho].
        + apply in_map_iff in Ho. destruct Ho as (bs & <- & Hb). rewrite Forall_forall in Hg2. exact (Hg2 bs Hb).
        + apply repeat_spec in Ho. subst o. exact Logic.I.
      - apply Forall_forall. intros o Ho. apply repeat_spec in Ho. subst o. exact Logic.I. }
    destruct (tx_history c ops Hc Hpl) as (xs & tx & h & Htx & Hcall & Hres & Hh).
    unfold ops in Hcall. apply split_history in Hcall. destruct Hcall as (h1 & h2 & -> & H1 & H2).
    destruct (groups_accepted c gs h1 Hc (history_app _ _ _ Hh) Hg1 Hg2 H1) as [Hq1 Hw].
    apply split_history in H2. destruct H2 as (h2' & h3 & -> & H2 & H3).
    destruct (only_ticks h2' n H2) as [Hq2 Ht2]. destruct (only_ticks h3 j H3) as [Hq3 Ht3]. rename h2' into h2.
    rewrite app_assoc in Hh, Hres.
    assert (Hq : queued (h1 ++ h2) = concat pss) by (rewrite queued_app, Hq1, Hq2, app_nil_r, Hfst; reflexivity).
    assert (Hpk : forall bs, In bs (queued ((h1 ++ h2) ++ h3)) -> packet_ok bs /\ complete bs).
    { intros bs Hb. rewrite queued_app, Hq3, app_nil_r, Hq in Hb. rewrite Forall_forall in Hok, Hcomp. auto. }
    exists ((h1 ++ h2) ++ h3), xs, tx. split; [exact Htx|]. split; [rewrite <- Hres; apply intervals_ticks|]. split; [exact Hh|].
    split; [exact Hpk|]. intros done left Hfin Hle.
    apply history_app in Hh. rewrite ticks_app, app_length, Ht3, Nat.add_sub, started_app, app_comm_cons, finished_app in Hfin
      by (destruct (ticks_prefix c _ Hh) as (rest & Hrest); unfold track in Hrest; unfold space; rewrite <- Hrest, app_length; lia).
    destruct (all_finished c h1 [] h2 Hc Hh ltac:(rewrite Hq; exact H18) Hw Hq2 ltac:(rewrite Ht2; cbn [length]; lia))
      as (fs & r & Hf & Hr1 & Hr2 & Hr3).
    rewrite Hf in Hfin. rewrite Hq, (orders_not_idle os pss Hos Hp) in Hr3. rewrite <- Hr3.
    assert (Hall : filter not_idle (fs ++ [0xFF; 0; 0xFF] :: r) = filter not_idle fs).
    { rewrite filter_app. cbn [filter]. change (not_idle [0xFF; 0; 0xFF]) with false. cbn iota.
      replace (filter not_idle r) with (@nil (list Z)); [apply app_nil_r|].
      clear - Hr2. induction Hr2 as [|x l -> H IH]; [reflexivity|]. exact IH. }
    rewrite <- Hall, Hfin, filter_app.
    replace (filter not_idle left) with (@nil (list Z)); [rewrite app_nil_r; reflexivity|].
    destruct left as [|q [|q' l]]; [reflexivity| |cbn [length] in Hle; lia].
    assert (q = [0xFF; 0; 0xFF]) as ->; [|reflexivity].
    destruct r as [|x r _] using rev_ind.
    - apply app_inj_tail in Hfin. symmetry. apply Hfin.
    - rewrite app_comm_cons, app_assoc in Hfin. apply app_inj_tail in Hfin. destruct Hfin as [_ <-].
      apply Forall_app in Hr2. destruct Hr2 as [_ Hr2]. apply Forall_inv in Hr2. exact Hr2.
  Qed.


Lemma orders_tracked : forall c os pss ks n, config_ok c -> Forall order_ok os -> Forall2 packets_for os pss ->
  length ks = length os -> Forall (fun k => (782 < k)%nat) ks -> (782 < n)%nat ->
  exists h xs tx, tx_run (TInit c :: flat_map calls (combine pss ks) ++ repeat TTransmit n) (tx_init_state 4)
                  = Ok ((None, []) :: xs, tx) /\ intervals xs = ticks h /\ history_ok c h /\
    (forall bs, In bs (queued h) -> packet_ok bs /\ complete bs) /\
    forall done left, finished c (None :: started h) (length (ticks h)) = done ++ left -> (length left <= 1)%nat ->
      filter not_idle done = concat pss.
Proof.
  intros c os pss ks n Hc Hos Hp Hlen Hks Hn.
  destruct (orders_tracked_behind c os pss ks 0 n 0 Hc Hos Hp Hlen Hks Hn) as (h & xs & tx & Htx & Hxs & Hh & Hpk & Hall).
  rewrite Nat.add_0_r in Htx. rewrite Nat.sub_0_r in Hall. exists h, xs, tx. auto.
Qed.

Section Composed.
  Context {I : Type} (E : Env I) (m : I -> Z -> Z) (able : access -> Prop) (time : I -> Z)
    (Hk : keeps_cvs able E m) (HE : short_cv1 E) (HC : clock E time).

  Lemma known_obeyed : forall c h i dos, 0 <= time i -> config_ok c -> history_ok c h ->
    (forall bs, In bs (queued h) -> packet_ok bs /\ complete bs) ->
    filter is_receive dos = map OReceive (map fst (ticks h)) -> ~ In ODisable dos -> executes_every 76 dos -> on_time dos ->
    exists s es, run E (OInit :: dos) (st0 i) = Ok (tt, s, es) /\ logons dos listener0 = [] /\
      finished c (None :: started h) (length (ticks h)) = SpecRx.taken dos listener0 ++ r_deque (rxs s) /\
      (length (r_deque (rxs s)) <= 1)%nat.
  Proof.
    intros c h i dos Hi Hc Hh Hq Hdos Hnd Hex Hon. destruct (prompt_enough dos Hex) as [Hnf Hle].
    assert (Hq1 : Forall packet_ok (queued h)) by (apply Forall_forall; intros bs Hb; apply (Hq bs Hb)).
    assert (Hq2 : Forall complete (queued h)) by (apply Forall_forall; intros bs Hb; apply (Hq bs Hb)).
    destruct (known_total E time HE HC c h i dos Hi Hc Hh Hq1 Hq2 Hdos Hnd Hnf Hon) as (s & es & Hrun).
    assert (Hnf1 : never_full (OInit :: dos) listener0).
    { intros [|a os1] os2 He; [cbn; lia|]. cbn [List.app] in He. injection He as <- He. exact (Hnf os1 os2 He). }
    assert (Hnd1 : ~ In ODisable (OInit :: dos)) by (intros [H|H]; [discriminate H|exact (Hnd H)]).
    destruct (known_history E c h i (OInit :: dos) s es Hc Hh Hq1 Hdos Hnd1 Hnf1 Hrun) as [Hfin Hlo].
    exists s, es. split; [exact Hrun|]. split; [exact Hlo|]. split; [symmetry; exact Hfin|].
    pose proof (run_refines E (OInit :: dos) listener0 (st0 i) s es (Rl0 i) Hrun) as (_ & Hqu & _).
    rewrite Hqu. exact Hle.
  Qed.

  Theorem station_obeyed : forall c ops i, 0 <= time i -> config_ok c -> Forall plain_op ops ->
    (forall bs, In (TBytes bs) ops -> packet_ok bs /\ complete bs) ->
    exists h xs tx, tx_run (TInit c :: ops) (tx_init_state 4) = Ok ((None, []) :: xs, tx) /\
    flat_map call_of h = ops /\ flat_map result_of h = xs /\ history_ok c h /\
    forall dos, filter is_receive dos = map OReceive (map fst (intervals xs)) -> ~ In ODisable dos ->
      executes_every 76 dos -> on_time dos ->
      exists s es done left, run E (OInit :: dos) (st0 i) = Ok (tt, s, es) /\
        finished c (None :: started h) (length (ticks h)) = done ++ left /\ (length left <= 1)%nat /\
        let x := obey_all (e_east_west E) done (new_view (m i)) in
        Forall (allowed able) (snd x) ->
        seen_in es = snd x /\ (forall a, m (Rx.app s) a = v_cvs (fst x) a) /\
        in_service s = v_service (fst x) /\ page s = v_page (fst x).
  Proof.
    intros c ops i Hi Hc Hops Hpk. destruct (tx_history c ops Hc Hops) as (xs & tx & h & Htx & Hcall & Hres & Hh).
    exists h, xs, tx. split; [exact Htx|]. split; [exact Hcall|]. split; [exact Hres|]. split; [exact Hh|].
    intros dos Hdos Hnd Hex Hon. rewrite <- Hres, intervals_ticks in Hdos.
    assert (Hq : forall bs, In bs (queued h) -> packet_ok bs /\ complete bs).
    { intros bs Hb. apply Hpk. rewrite <- Hcall. apply queued_calls. exact Hb. }
    destruct (known_obeyed c h i dos Hi Hc Hh Hq Hdos Hnd Hex Hon) as (s & es & Hrun & Hlo & Hfin & Hle).
    exists s, es, (SpecRx.taken dos listener0), (r_deque (rxs s)). split; [exact Hrun|].
    split; [exact Hfin|]. split; [exact Hle|]. exact (layout E m able Hk dos i s es Hrun Hlo).
  Qed.

  (** Orders given at leisure are carried out, all of them, once *)
  Theorem orders_done : forall c os pss ks n i, 0 <= time i -> config_ok c -> Forall order_ok os -> Forall2 packets_for os pss ->
    length ks = length os -> Forall (fun k => (782 < k)%nat) ks -> (782 < n)%nat ->
    Forall (allowed able) (snd (carry_out_all os (m i, None))) ->
    exists xs tx, tx_run (TInit c :: flat_map calls (combine pss ks) ++ repeat TTransmit n) (tx_init_state 4)
                  = Ok ((None, []) :: xs, tx) /\
    forall dos, filter is_receive dos = map OReceive (map fst (intervals xs)) -> ~ In ODisable dos ->
      executes_every 76 dos -> on_time dos ->
      exists s es, run E (OInit :: dos) (st0 i) = Ok (tt, s, es) /\
        seen_in es = snd (carry_out_all os (m i, None)) /\
        forall a, m (Rx.app s) a = fst (fst (carry_out_all os (m i, None))) a.
  Proof.
    intros c os pss ks n i Hi Hc Hos Hp Hlen Hks Hn Hal.
    destruct (orders_tracked c os pss ks n Hc Hos Hp Hlen Hks Hn) as (h & xs & tx & Htx & Hxs & Hh & Hpk & Hall).
    exists xs, tx. split; [exact Htx|]. intros dos Hdos Hnd Hex Hon. rewrite Hxs in Hdos.
    destruct (known_obeyed c h i dos Hi Hc Hh Hpk Hdos Hnd Hex Hon) as (s & es & Hrun & Hlo & Hfin & Hle).
    exists s, es. split; [exact Hrun|].
    exact (orders_seen E m able Hk dos i s es os pss Hrun Hlo Hos Hp (Hall _ _ Hfin Hle) Hal).
  Qed.
End Composed.
