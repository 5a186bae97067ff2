(** Station, track and decoder together with logon packets *)
From Verif Require Import Prelude Address ZBits SpecCodec SpecTx TxProofs Tx RxState Rx CodecProofs RxLogic SpecRx
  RxBitProofs RxBitProofs2 RxBitProofs3 RxBitProofs4 RxBitProofs5 SpecExec SpecConf SpecCv SpecLogon LogonProofs SpecLayout LayoutProofs5 SpecLayout2
  SpecStation StationProofs2 StationProofs3 SpecNode NodeProofs NodeProofs6 NodeProofs7 SpecLine LineProofs.

Lemma idle_sendable : sendable [0xFF; 0; 0xFF].
Proof. destruct idle_ok as (H1 & H2 & H3 & _). repeat split; assumption || apply H2. Qed.

Lemma started_queued : forall c h bs, history_ok c h -> In (Some bs) (started h) -> In bs (queued h).
Proof.
  intros c h bs Hh Hp. unfold started in Hp. apply in_flat_map in Hp. destruct Hp as (e & He & Hp).
  destruct e as [| |q|]; try contradiction. destruct Hp as [-> |[]]. apply in_split in He. destruct He as (h1 & h2 & ->).
  destruct (Hh h1 (Started (Some bs)) h2 eq_refl) as (ws & Hw & Hhd & _).
  rewrite queued_app. apply in_or_app. left. unfold SpecTx.waiting in Hw. rewrite Hw. apply in_or_app. right.
  destruct ws; [discriminate|]. inversion Hhd. left. reflexivity.
Qed.

Section Line.
  Context {I : Type} (E : Env I) (m : I -> Z -> Z) (able : access -> Prop) (Hk : keeps_cvs able E m).
  Implicit Types s : st I.

  Lemma history_arrives : forall c h i dos s es, config_ok c -> history_ok c h -> Forall sendable (queued h) ->
    filter is_receive dos = map OReceive (map fst (ticks h)) -> ~ In ODisable dos -> never_full dos listener0 ->
    run E dos (st0 i) = Ok (tt, s, es) -> arrived dos listener0 = finished c (None :: started h) (length (ticks h)).
  Proof.
    intros c h i dos s es Hc Hh Hq Hdos Hnd Hnf Hrun.
    rewrite (arrived_machine E dos _ _ _ _ (Rl0 i) Hrun Hnd Hnf), (half_bits_in_receives _ _ Hdos).
    destruct (ticks_prefix c h Hh) as (rest & Hrest). unfold track in Hrest.
    assert (Hfn : map fst (ticks h) = firstn (length (ticks h)) (map fst (flat_map (on_track c) (None :: started h)))).
    { rewrite <- Hrest, map_app, firstn_app, map_length, Nat.sub_diag, firstn_O, app_nil_r.
      rewrite firstn_all2; [reflexivity|rewrite map_length; lia]. }
    rewrite Hfn. apply crun_track; [exact Hc| |repeat split].
    constructor; [exact idle_sendable|]. apply Forall_forall. intros [bs|] Hp; [|exact idle_sendable]. cbn [bytes].
    exact (proj1 (Forall_forall _ _) Hq bs (started_queued c h bs Hh Hp)).
  Qed.

  Lemma inputs_heard : forall os l, heard_in (inputs os l) = filter is_logon (arrived os l).
  Proof.
    induction os as [|o os IH]; intros l; [reflexivity|]. cbn [inputs arrived]. unfold heard_in in *. rewrite flat_map_app, filter_app, IH. f_equal.
    destruct o; try reflexivity.
    - match goal with |- context [completed ?x l] => destruct (completed x l) as [bs|]; [|reflexivity]; cbn [filter]; destruct (is_logon bs); reflexivity end.
    - cbn [completed filter]. destruct (l_fresh l); [reflexivity|]. destruct (l_queue l); reflexivity.
  Qed.
  Lemma inputs_taken : forall os l, taken_in (inputs os l) = SpecRx.taken os l.
  Proof.
    induction os as [|o os IH]; intros l; [reflexivity|]. cbn [inputs SpecRx.taken]. unfold taken_in in *. rewrite flat_map_app, IH. f_equal.
    destruct o; try reflexivity.
    - match goal with |- context [completed ?x l] => destruct (completed x l) as [bs|]; [|reflexivity]; destruct (is_logon bs); reflexivity end.
    - destruct (l_fresh l); [reflexivity|]. destruct (l_queue l); reflexivity.
  Qed.
  Lemma arrived_heard : forall os l, SpecRx.heard os l = filter (fun p => negb (is_logon p)) (arrived os l).
  Proof.
    induction os as [|o os IH]; intros l; [reflexivity|]. cbn [SpecRx.heard arrived]. rewrite filter_app, IH. f_equal.
    destruct (completed o l) as [bs|]; [|reflexivity]. cbn [filter]. destruct (is_logon bs); reflexivity.
  Qed.

  Lemma line : forall c ops xs tx i dos s es,
    config_ok c -> Forall plain_op ops -> (forall bs, In (TBytes bs) ops -> sendable bs) ->
    tx_run (TInit c :: ops) (tx_init_state 4) = Ok ((None, []) :: xs, tx) ->
    filter is_receive dos = map OReceive (map fst (intervals xs)) -> ~ In ODisable dos ->
    never_full dos listener0 -> run E (OInit :: dos) (st0 i) = Ok (tt, s, es) ->
    let ins := inputs dos listener0 in
    let x := attend_all (e_east_west E) (Configured :: ins) (new_node (m i)) in
    exists h, flat_map call_of h = ops /\ flat_map result_of h = xs /\ history_ok c h /\
      filter is_logon (finished c (None :: started h) (length (ticks h))) = heard_in ins /\
      filter (fun p => negb (is_logon p)) (finished c (None :: started h) (length (ticks h))) = taken_in ins ++ r_deque (rxs s) /\
      (Forall (allowed able) (snd x) ->
       seen_in es = snd x /\ (forall a, m (app s) a = v_cvs (n_view (fst x)) a) /\
       own_addresses s = (n_own (fst x), n_consist (fst x), n_logon (fst x)) /\
       is_selected s = n_selected (fst x) /\ is_assigned s = n_assigned (fst x)).
  Proof.
    intros c ops xs tx i dos s es Hc Hops Hpk Htx Hdos Hnd Hnf Hrun ins x.
    destruct (tx_history c ops Hc Hops) as (xs' & tx' & h & Htx' & Hcall & Hres & Hh).
    assert (xs' = xs) as -> by congruence. exists h. split; [exact Hcall|]. split; [exact Hres|]. split; [exact Hh|].
    assert (Hnf1 : never_full (OInit :: dos) listener0).
    { intros [|a os1] os2 He; [cbn; lia|]. cbn [List.app] in He. injection He as <- He. exact (Hnf os1 os2 He). }
    assert (Hnd1 : ~ In ODisable (OInit :: dos)) by (intros [H|H]; [discriminate|exact (Hnd H)]).
    assert (Hq : Forall sendable (queued h)).
    { apply Forall_forall. intros bs Hb. apply Hpk. rewrite <- Hcall. unfold queued in Hb. apply in_flat_map in Hb. destruct Hb as (e & He & Hb).
      destruct e; try contradiction. destruct Hb as [-> |[]]. apply in_flat_map. exists (Queued bs). split; [exact He|left; reflexivity]. }
    assert (Hdos1 : filter is_receive (OInit :: dos) = map OReceive (map fst (ticks h))) by (rewrite <- intervals_ticks, Hres; exact Hdos).
    assert (Ha := history_arrives c h i (OInit :: dos) s es Hc Hh Hq Hdos1 Hnd1 Hnf1 Hrun).
    change (arrived (OInit :: dos) listener0) with (arrived dos listener0) in Ha. rewrite <- Ha.
    split; [symmetry; apply inputs_heard|]. split.
    - unfold ins. rewrite inputs_taken, <- arrived_heard. pose proof (log_queue dos listener0) as Hl. cbn [l_queue listener0 List.app] in Hl. rewrite Hl. f_equal.
      pose proof (run_refines E _ _ _ _ _ (Rl0 i) Hrun) as HR. destruct HR as (_ & HR & _). symmetry. exact HR.
    - intros Hal. change (Configured :: ins) with (inputs (OInit :: dos) listener0) in x. subst x.
      destruct (node_runs E m able Hk _ _ _ _ Hrun Hal) as (K1 & K2 & _ & _ & K5 & K6 & K7 & _). auto.
  Qed.
End Line.

(** ** Logging on over the track *)

Lemma groups_tracked : forall c gs n, config_ok c -> Forall leisurely gs -> Forall (fun g => Forall sendable (fst g)) gs ->
  Forall (fun p => not_idle p = true) (concat (map fst gs)) -> (782 < n)%nat ->
  exists h xs tx, tx_run (TInit c :: flat_map calls gs ++ repeat TTransmit n) (tx_init_state 4) = Ok ((None, []) :: xs, tx) /\
    intervals xs = ticks h /\ history_ok c h /\ queued h = concat (map fst gs) /\
    filter not_idle (finished c (None :: started h) (length (ticks h))) = concat (map fst gs).
Proof.
  intros c gs n Hc Hl Hs Hi Hn.
  assert (H18 : Forall (fun g => Forall (fun bs => (length bs <= 18)%nat) (fst g)) gs).
  { eapply Forall_impl; [|exact Hs]. intros g Hg. eapply Forall_impl; [|exact Hg]. intros bs (_ & H & _). lia. }
  assert (Hpl : Forall plain_op (flat_map calls gs ++ repeat TTransmit n)).
  { apply Forall_app. split.
    - apply Forall_forall. intros o Ho. apply in_flat_map in Ho. destruct Ho as (g & Hgi & Ho). rewrite Forall_forall in H18. specialize (H18 g Hgi).
      unfold calls in Ho. apply in_app_or in Ho. destruct Ho as [Ho|Ho].
      + apply in_map_iff in Ho. destruct Ho as (bs & <- & Hb). rewrite Forall_forall in H18. exact (H18 bs Hb).
      + apply repeat_spec in Ho. subst o. exact Logic.I.
    - apply Forall_forall. intros o Ho. apply repeat_spec in Ho. subst o. exact Logic.I. }
  destruct (tx_history c _ Hc Hpl) as (xs & tx & h & Htx & Hcall & Hres & Hh).
  apply split_history in Hcall. destruct Hcall as (h1 & h2 & -> & H1 & H2).
  destruct (groups_accepted c gs h1 Hc (history_app _ _ _ Hh) Hl H18 H1) as [Hq1 Hw].
  destruct (only_ticks h2 n H2) as [Hq2 Ht2].
  assert (Hq : queued (h1 ++ h2) = concat (map fst gs)) by (rewrite queued_app, Hq1, Hq2, app_nil_r; reflexivity).
  exists (h1 ++ h2), xs, tx. split; [exact Htx|]. split; [rewrite <- Hres; apply intervals_ticks|]. split; [exact Hh|]. split; [exact Hq|].
  assert (H18' : Forall (fun bs => (length bs <= 18)%nat) (queued (h1 ++ h2))).
  { rewrite Hq. apply Forall_forall. intros bs Hb. apply in_concat in Hb. destruct Hb as (ps & Hp & Hb). apply in_map_iff in Hp.
    destruct Hp as (g & <- & Hg). rewrite Forall_forall in H18. specialize (H18 g Hg). rewrite Forall_forall in H18. exact (H18 bs Hb). }
  destruct (all_finished c h1 [] h2 Hc Hh H18' Hw Hq2 ltac:(rewrite Ht2; cbn [length]; lia)) as (fs & r & Hf & _ & Hr2 & Hr3).
  rewrite Hf, filter_app. cbn [filter]. change (not_idle [0xFF; 0; 0xFF]) with false. cbn iota.
  replace (filter not_idle r) with (@nil (list Z)); [|clear - Hr2; induction Hr2 as [|x l -> H IH]; [reflexivity|exact IH]].
  rewrite app_nil_r, Hr3, Hq. clear - Hi. induction Hi as [|p l Hp Hl IH]; [reflexivity|]. cbn [filter]. rewrite Hp, IH. reflexivity.
Qed.

(** The station's packets are logon packets, all others are idle packets *)
Lemma filter_finished : forall c h, history_ok c h -> Forall (fun p => is_logon p = true) (queued h) ->
  Forall (fun p => is_logon p = true \/ p = [0xFF; 0; 0xFF]) (finished c (None :: started h) (length (ticks h))).
Proof.
  intros c h Hh Hq. assert (G : Forall (fun p => is_logon (bytes p) = true \/ bytes p = [0xFF; 0; 0xFF]) (None :: started h)).
  { constructor; [right; reflexivity|]. apply Forall_forall. intros [bs|] Hp; [|right; reflexivity]. left. cbn [bytes].
    exact (proj1 (Forall_forall _ _) Hq bs (started_queued c h bs Hh Hp)). }
  revert G. generalize (None :: started h). generalize (length (ticks h)). intros n ps. revert n. induction ps as [|p ps IH]; intros n G; [constructor|].
  inversion G as [|? ? G1 G2]; subst. cbn [finished]. destruct (_ <? _)%nat; [constructor|]. constructor; [destruct p; exact G1|apply IH; exact G2].
Qed.

Definition idle_only (x : input) : Prop := match x with Configured => False | Heard _ => True | Taken p => p = [0xFF; 0; 0xFF] end.

Section LogOn.
  Variable ew : bool.
  Variable id : list Z.

  Definition standing n : Prop := logon_enabled (n_conf n) = true /\ did (n_conf n) = id /\ v_service (n_view n) = false.
  Definition early n : Prop := standing n /\ (n_assigned n = true -> n_selected n = true).
  Definition chosen n : Prop := standing n /\ n_selected n = true.

  (** Of an idle packet only storing remains *)
  Lemma idle_execution : forall n, v_service (n_view n) = false ->
    let x := execution ew [0xFF; 0; 0xFF] n in
    n_conf (fst x) = n_conf n /\ v_service (n_view (fst x)) = false /\ n_logon (fst x) = n_logon n /\
    n_selected (fst x) = n_selected n /\ n_assigned (fst x) = n_assigned n /\
    Forall (fun y => match y with Access _ => True | Told _ => False end) (snd x).
  Proof.
    intros n Hv. assert (G : forall n0, operate ew [0xFF; 0; 0xFF] n0 = (n0, [])) by (intros n0; reflexivity).
    unfold execution, store_all. destruct (n_store n).
    - cbn [n_view with_cvs v_service]. rewrite Hv, G. cbn [fst snd n_conf n_view n_logon n_selected n_assigned with_cvs v_service].
      repeat split; [exact Hv|]. rewrite app_nil_r. apply Forall_forall. intros y Hy. apply in_map_iff in Hy. destruct Hy as (z & <- & _). exact Logic.I.
    - rewrite Hv, G. cbn [fst snd List.app]. repeat split; [exact Hv|constructor].
  Qed.

  Lemma hear_standing : forall n p, standing n -> standing (SpecNode.hear p n).
  Proof.
    intros n p H. unfold SpecNode.hear. destruct (negb (intact p)); [exact H|]. destruct (_ <? 208); [exact H|]. destruct (_ <? 224).
    - unfold hear_select. destruct (_ && _ && _); exact H.
    - destruct (_ <? 240).
      + destruct (understood _ _ _); [|exact H]. unfold hear_assign. destruct (_ && _); exact H.
      + unfold hear_enable. destruct (_ && _); [|exact H]. destruct (_ =? _); [|exact H]. destruct (_ && _); exact H.
  Qed.

  Lemma hear_early : forall n p, early n -> not_for id p -> early (SpecNode.hear p n).
  Proof.
    intros n p [H Ha] Hn. split; [apply hear_standing; exact H|]. destruct H as (_ & Hd & _).
    unfold SpecNode.hear. destruct (negb (intact p)); [exact Ha|]. destruct (Z.ltb_spec (nth 1 p 0) 208); [exact Ha|]. destruct (Z.ltb_spec (nth 1 p 0) 224).
    - unfold hear_select. destruct (_ && _ && _); [intros _; reflexivity|exact Ha].
    - destruct (Z.ltb_spec (nth 1 p 0) 240).
      + destruct (understood _ _ _); [|exact Ha]. unfold hear_assign. rewrite Hd. unfold same_id.
        destruct (list_eq_dec Z.eq_dec (firstn 4 (skipn 3 p)) id) as [K|]; [elim Hn; split; [lia|exact K]|]. rewrite andb_false_r. exact Ha.
      + unfold hear_enable. destruct (_ && _); [|exact Ha]. destruct (_ =? _); [|exact Ha]. destruct (_ && _); [intros _; reflexivity|discriminate].
  Qed.

  Lemma hear_chosen : forall n p, early n -> says p (Select id) -> undamaged p -> chosen (SpecNode.hear p n).
  Proof.
    intros n p [H Ha] Hs Hu. split; [apply hear_standing; exact H|]. destruct H as (He & Hd & _). destruct (says_id _ _ Hs) as [S1 S2].
    apply undamaged_spec in Hu. change (undamaged_b p) with (intact p) in Hu.
    unfold SpecNode.hear. rewrite Hu. cbn [negb]. replace (nth 1 p 0 <? 208) with false by (symmetry; lia). replace (nth 1 p 0 <? 224) with true by (symmetry; lia).
    unfold hear_select. rewrite S1, He, Hd. unfold same_id. destruct (list_eq_dec Z.eq_dec id id) as [_|K]; [|congruence].
    destruct (n_assigned n) eqn:En; cbn [negb andb]; [exact (Ha eq_refl)|reflexivity].
  Qed.

  Lemma hear_logged : forall n p a b A, chosen n -> says p (Assign id a b) -> undamaged p -> understood a b (nth 9 p 0) = Some A -> aval A <> 0 ->
    chosen (SpecNode.hear p n) /\ logged_on A (SpecNode.hear p n).
  Proof.
    intros n p a b A [H Hsel] Hs Hu Hun HA. pose proof (hear_standing n p H) as Hst. destruct H as (He & Hd & _).
    destruct (says_assign_at _ _ _ _ Hs) as (A1 & A2 & A3 & A4). apply undamaged_spec in Hu. change (undamaged_b p) with (intact p) in Hu.
    assert (SpecNode.hear p n = hear_assign id A (a <? 192) n) as E.
    { unfold SpecNode.hear. rewrite Hu. cbn [negb]. replace (nth 1 p 0 <? 208) with false by (symmetry; lia).
      replace (nth 1 p 0 <? 224) with false by (symmetry; lia). replace (nth 1 p 0 <? 240) with true by (symmetry; lia).
      rewrite A1, A3, A4, Hun. reflexivity. }
    assert (n_selected (SpecNode.hear p n) = true /\ logged_on A (SpecNode.hear p n)) as [K1 K2]; [|split; [split; assumption|exact K2]].
    rewrite E. unfold hear_assign. rewrite He, Hd. unfold same_id. destruct (list_eq_dec Z.eq_dec id id) as [_|K]; [|congruence].
    cbn [andb]. split; [exact Hsel|]. repeat split; [exact HA|exact Hsel].
  Qed.

  (** Something that holds stays so as long as nothing is for this decoder *)
  Lemma waiting_through : forall (P : node -> Prop), (forall n, P n -> v_service (n_view n) = false) ->
    (forall n p, P n -> not_for id p -> P (SpecNode.hear p n)) ->
    (forall n, P n -> P (fst (execution ew [0xFF; 0; 0xFF] n))) ->
    forall xs n, P n -> Forall idle_only xs -> Forall (not_for id) (heard_in xs) ->
    P (fst (attend_all ew xs n)) /\ untold (snd (attend_all ew xs n)).
  Proof.
    intros P P1 P2 P3. induction xs as [|x xs IH]; intros n Hn Hi Hf; [split; [exact Hn|constructor]|].
    inversion Hi as [|? ? Hx Hxs]; subst. destruct x as [|p|p]; [destruct Hx| |].
    - unfold heard_in in Hf. cbn [flat_map List.app] in Hf. inversion Hf as [|? ? F1 F2]; subst.
      cbn [attend_all attend]. destruct (IH _ (P2 n p Hn F1) Hxs F2) as [K1 K2]. destruct (attend_all ew xs (SpecNode.hear p n)). split; [exact K1|exact K2].
    - cbn [idle_only] in Hx. subst p. cbn [attend_all attend]. pose proof (P3 n Hn) as Hn'.
      destruct (idle_execution n (P1 n Hn)) as (_ & _ & _ & _ & _ & Hu).
      destruct (execution ew [0xFF; 0; 0xFF] n) as [n1 ys]. cbn [fst snd] in *. destruct (IH _ Hn' Hxs Hf) as [K1 K2].
      destruct (attend_all ew xs n1). split; [exact K1|]. apply Forall_app. split; [exact Hu|exact K2].
  Qed.

  Lemma idle_early : forall n, early n -> early (fst (execution ew [0xFF; 0; 0xFF] n)).
  Proof.
    intros n [(H1 & H2 & H3) H4]. destruct (idle_execution n H3) as (K1 & K2 & _ & K4 & K5 & _). unfold early, standing. rewrite K1, K2, K4, K5. auto.
  Qed.
  Lemma idle_chosen : forall n, chosen n -> chosen (fst (execution ew [0xFF; 0; 0xFF] n)).
  Proof.
    intros n [(H1 & H2 & H3) H4]. destruct (idle_execution n H3) as (K1 & K2 & _ & K4 & K5 & _). unfold chosen, standing. rewrite K1, K2, K4. auto.
  Qed.
  Lemma idle_logged : forall A n, chosen n /\ logged_on A n -> chosen (fst (execution ew [0xFF; 0; 0xFF] n)) /\ logged_on A (fst (execution ew [0xFF; 0; 0xFF] n)).
  Proof.
    intros A n [H (L1 & L2 & L3 & L4)]. split; [apply idle_chosen; exact H|]. destruct H as [(_ & _ & H3) _].
    destruct (idle_execution n H3) as (_ & _ & K3 & K4 & K5 & _). unfold logged_on. rewrite K3, K4, K5. auto.
  Qed.

  Lemma heard_split : forall xs ps p qs, heard_in xs = ps ++ p :: qs ->
    exists a b, xs = a ++ Heard p :: b /\ heard_in a = ps /\ heard_in b = qs.
  Proof.
    induction xs as [|x xs IH]; intros ps p qs H; [destruct ps; discriminate H|].
    assert (K : heard_in xs = ps ++ p :: qs -> (forall q, x <> Heard q) -> exists a b, x :: xs = a ++ Heard p :: b /\ heard_in a = ps /\ heard_in b = qs).
    { intros H' Hx. destruct (IH _ _ _ H') as (a & b & -> & Ha & Hb). exists (x :: a), b. split; [reflexivity|]. split; [|exact Hb].
      unfold heard_in in *. cbn [flat_map]. rewrite Ha. destruct x; try reflexivity. destruct (Hx p0 eq_refl). }
    destruct x as [|q|q]; [apply K; [exact H|discriminate]| |apply K; [exact H|discriminate]]. clear K.
    unfold heard_in in H. cbn [flat_map List.app] in H. destruct ps as [|p0 ps]; cbn [List.app] in H.
    - injection H as -> H. exists [], xs. auto.
    - injection H as -> H. destruct (IH _ _ _ H) as (a & b & -> & Ha & Hb). exists (Heard p0 :: a), b. split; [reflexivity|]. split; [|exact Hb].
      unfold heard_in in *. cbn [flat_map List.app]. rewrite Ha. reflexivity.
  Qed.

  Lemma logs_on : forall xs n pre sel mid asg post a b A, early n -> Forall idle_only xs -> heard_in xs = pre ++ sel :: mid ++ asg :: post ->
    Forall (not_for id) (pre ++ mid ++ post) -> says sel (Select id) -> undamaged sel -> says asg (Assign id a b) -> undamaged asg ->
    understood a b (nth 9 asg 0) = Some A -> aval A <> 0 ->
    logged_on A (fst (attend_all ew xs n)) /\ untold (snd (attend_all ew xs n)).
  Proof.
    intros xs n pre sel mid asg post a b A Hn Hi Hx Hf Hs Us Ha Ua Hu HA. rewrite !Forall_app in Hf. destruct Hf as (F1 & F2 & F3).
    destruct (heard_split _ _ _ _ Hx) as (x1 & xr & -> & X1 & Xr). destruct (heard_split _ _ _ _ Xr) as (x2 & x3 & -> & X2 & X3).
    rewrite !Forall_app in Hi. destruct Hi as [I1 Hi]. inversion Hi as [|? ? _ Hi']; subst. rewrite Forall_app in Hi'. destruct Hi' as [I2 Hi'].
    inversion Hi' as [|? ? _ I3]; subst.
    destruct (waiting_through early (fun n H => proj2 (proj2 (proj1 H))) hear_early idle_early x1 n Hn I1 F1) as [E1 U1].
    rewrite attend_app. cbn [fst snd]. set (n1 := fst (attend_all ew x1 n)) in *. cbn [attend_all attend].
    pose proof (hear_chosen n1 sel E1 Hs Us) as C1. set (n2 := SpecNode.hear sel n1) in *.
    assert (CP : forall n p, chosen n -> not_for id p -> chosen (SpecNode.hear p n)).
    { intros n0 p H0 Hp. rewrite (not_heard id n0 p (proj1 (proj2 (proj1 H0))) (proj2 H0) Hp). exact H0. }
    destruct (waiting_through chosen (fun n H => proj2 (proj2 (proj1 H))) CP idle_chosen x2 n2 C1 I2 F2) as [E2 U2].
    rewrite attend_app. cbn [fst snd]. set (n3 := fst (attend_all ew x2 n2)) in *. cbn [attend_all attend].
    pose proof (hear_logged n3 asg a b A E2 Ha Ua Hu HA) as C3. set (n4 := SpecNode.hear asg n3) in *.
    assert (LP : forall n p, chosen n /\ logged_on A n -> not_for id p -> chosen (SpecNode.hear p n) /\ logged_on A (SpecNode.hear p n)).
    { intros n0 p [H0 H1] Hp. rewrite (not_heard id n0 p (proj1 (proj2 (proj1 H0))) (proj2 H0) Hp). auto. }
    destruct (waiting_through (fun n => chosen n /\ logged_on A n) (fun n H => proj2 (proj2 (proj1 (proj1 H)))) LP (idle_logged A) x3 n4 C3 I3 F3) as [E3 U3].
    destruct (attend_all ew x3 n4) as [n5 y5]. cbn [fst snd List.app] in *. split; [exact (proj2 E3)|].
    apply Forall_app. split; [exact U1|]. apply Forall_app. split; [exact U2|exact U3].
  Qed.
End LogOn.

Section OverTheTrack.
  Context {I : Type} (E : Env I) (m : I -> Z -> Z) (able : access -> Prop) (Hk : keeps_cvs able E m).

  Lemma logged_on_over_track : forall c gs n id A pre sel mid asg post a b i, config_ok c -> Forall leisurely gs -> (782 < n)%nat ->
    concat (map fst gs) = pre ++ sel :: mid ++ asg :: post -> Forall (fun p => sendable p /\ is_logon p = true) (concat (map fst gs)) ->
    Forall (not_for id) (pre ++ mid ++ post) -> says sel (Select id) -> undamaged sel -> says asg (Assign id a b) -> undamaged asg ->
    understood a b (nth 9 asg 0) = Some A -> aval A <> 0 -> logon_enabled (switches (m i)) = true -> did (switches (m i)) = id ->
    exists xs tx, tx_run (TInit c :: flat_map calls gs ++ repeat TTransmit n) (tx_init_state 4) = Ok ((None, []) :: xs, tx) /\
    forall dos s es, filter is_receive dos = map OReceive (map fst (intervals xs)) -> ~ In ODisable dos -> ~ In OInit dos ->
      never_full dos listener0 -> run E (OInit :: dos) (st0 i) = Ok (tt, s, es) ->
      Forall (allowed able) (snd (attend_all (e_east_west E) (inputs (OInit :: dos) listener0) (new_node (m i)))) ->
      logon (r_addrs (rxs s)) = A /\ is_selected s = true /\ is_assigned s = true /\ untold (seen_in es).
  Proof.
    intros c gs n id A pre sel mid asg post a b i Hc Hl Hn Hps Hok Hf Hs Us Ha Ua Hu HA He Hid.
    assert (Hsend : Forall (fun g => Forall sendable (fst g)) gs).
    { apply Forall_forall. intros g Hg. apply Forall_forall. intros p Hp. rewrite Forall_forall in Hok. apply Hok.
      apply in_concat. exists (fst g). split; [apply in_map; exact Hg|exact Hp]. }
    assert (Hni : Forall (fun p => not_idle p = true) (concat (map fst gs))).
    { eapply Forall_impl; [|exact Hok]. intros p [_ Hp]. destruct p as [|x p]; [discriminate|]. cbn [is_logon] in Hp. unfold not_idle. cbn [nth].
      apply Z.eqb_eq in Hp. subst x. reflexivity. }
    destruct (groups_tracked c gs n Hc Hl Hsend Hni Hn) as (h & xs & tx & Htx & Hti & Hh & Hq & Hfi). exists xs, tx. split; [exact Htx|].
    intros dos s es Hdos Hnd Hno Hnf Hrun Hal.
    assert (Hnf1 : never_full (OInit :: dos) listener0).
    { intros [|z os1] os2 Hz; [cbn; lia|]. cbn [List.app] in Hz. injection Hz as <- Hz. exact (Hnf os1 os2 Hz). }
    assert (Hnd1 : ~ In ODisable (OInit :: dos)) by (intros [H|H]; [discriminate|exact (Hnd H)]).
    assert (Hqs : Forall sendable (queued h) /\ Forall (fun p => is_logon p = true) (queued h)).
    { rewrite Hq. split; eapply Forall_impl; try exact Hok; cbn; tauto. }
    assert (Hdos1 : filter is_receive (OInit :: dos) = map OReceive (map fst (ticks h))) by (rewrite <- Hti; exact Hdos).
    assert (Har := history_arrives E c h i (OInit :: dos) s es Hc Hh (proj1 Hqs) Hdos1 Hnd1 Hnf1 Hrun).
    change (arrived (OInit :: dos) listener0) with (arrived dos listener0) in Har.
    pose proof (filter_finished c h Hh (proj2 Hqs)) as Hff.
    assert (Hhi : heard_in (inputs dos listener0) = pre ++ sel :: mid ++ asg :: post).
    { rewrite inputs_heard, Har, <- Hps, <- Hfi. clear - Hff. induction Hff as [|p l Hp Hl IH]; [reflexivity|]. cbn [filter].
      destruct Hp as [Hp | ->].
      - rewrite Hp, IH. destruct p as [|x p]; [discriminate|]. cbn [is_logon] in Hp. unfold not_idle. cbn [nth]. apply Z.eqb_eq in Hp. subst x. reflexivity.
      - exact IH. }
    assert (Hio : Forall idle_only (inputs dos listener0)).
    { assert (Ht : Forall (fun p => p = [0xFF; 0; 0xFF]) (taken_in (inputs dos listener0))).
      { rewrite inputs_taken. pose proof (log_queue dos listener0) as Hlq. cbn [l_queue listener0 List.app] in Hlq. rewrite arrived_heard, Har in Hlq.
        assert (Hz : Forall (fun p => p = [0xFF; 0; 0xFF]) (filter (fun p => negb (is_logon p)) (finished c (None :: started h) (length (ticks h))))).
        { apply Forall_forall. intros p Hp. apply filter_In in Hp. destruct Hp as [Hp1 Hp2]. rewrite Forall_forall in Hff. destruct (Hff p Hp1) as [K|K]; [|exact K].
          rewrite K in Hp2. discriminate. }
        rewrite Hlq in Hz. apply Forall_app in Hz. apply Hz. }
      assert (Hnc : ~ In Configured (inputs dos listener0)).
      { clear - Hno. revert Hno. generalize listener0. induction dos as [|o dos IH]; intros l Hno Hin; [destruct Hin|].
        cbn [inputs] in Hin. apply in_app_or in Hin. destruct Hin as [Hin|Hin]; [|apply (IH (listen o l)); [intros K; apply Hno; right; exact K|exact Hin]].
        destruct o; try (destruct Hin; fail).
        - apply Hno. left. reflexivity.
        - match type of Hin with context [completed ?x l] => destruct (completed x l) as [bs|]; [|destruct Hin] end.
          destruct (is_logon bs); [|destruct Hin]. destruct Hin as [Hin|[]]. discriminate Hin.
        - apply in_map_iff in Hin. destruct Hin as (p & K & _). discriminate K. }
      revert Ht Hnc. generalize (inputs dos listener0). induction l as [|x l IH]; intros Ht Hnc; [constructor|].
      constructor.
      - destruct x as [|p|p]; [destruct Hnc; left; reflexivity|exact Logic.I|]. unfold taken_in in Ht. cbn [flat_map List.app] in Ht. inversion Ht; assumption.
      - apply IH; [|intros K; apply Hnc; right; exact K]. unfold taken_in in *. cbn [flat_map] in Ht. apply Forall_app in Ht. apply Ht. }
    destruct (node_runs E m able Hk _ _ _ _ Hrun Hal) as (K1 & _ & _ & _ & K5 & K6 & K7 & _).
    change (inputs (OInit :: dos) listener0) with (Configured :: inputs dos listener0) in K1, K5, K6, K7. cbn [attend_all attend] in K1, K5, K6, K7.
    assert (Hearly : early id (configure (new_node (m i)))) by (split; [repeat split; [exact He|exact Hid]|discriminate]).
    destruct (logs_on (e_east_west E) id _ _ pre sel mid asg post a b A Hearly Hio Hhi Hf Hs Us Ha Ua Hu HA) as [(L1 & L2 & L3 & L4) HU].
    destruct (attend_all (e_east_west E) (inputs dos listener0) (configure (new_node (m i)))) as [n5 ys]. cbn [fst snd List.app] in *.
    unfold own_addresses in K5. split; [congruence|]. split; [congruence|]. split; [congruence|]. rewrite K1. exact HU.
  Qed.
End OverTheTrack.

(** All decoders on the track *)
Lemma fleet_logged_on : forall c gs n pre xs, config_ok c -> Forall leisurely gs -> (782 < n)%nat ->
  concat (map fst gs) = pre ++ flat_map offered xs -> Forall (fun p => sendable p /\ is_logon p = true) (concat (map fst gs)) ->
  Forall (fun p => 240 <= nth 1 p 0) pre -> Forall proper xs -> NoDup (map of_id xs) ->
  exists rs tx, tx_run (TInit c :: flat_map calls gs ++ repeat TTransmit n) (tx_init_state 4) = Ok ((None, []) :: rs, tx) /\
  forall x, In x xs -> forall (I : Type) (E : Env I) (m : I -> Z -> Z) able, keeps_cvs able E m ->
  forall i dos s es, logon_enabled (switches (m i)) = true -> did (switches (m i)) = of_id x ->
    filter is_receive dos = map OReceive (map fst (intervals rs)) -> ~ In ODisable dos -> ~ In OInit dos ->
    never_full dos listener0 -> run E (OInit :: dos) (st0 i) = Ok (tt, s, es) ->
    Forall (allowed able) (snd (attend_all (e_east_west E) (inputs (OInit :: dos) listener0) (new_node (m i)))) ->
    logon (r_addrs (rxs s)) = of_address x /\ is_selected s = true /\ is_assigned s = true /\ untold (seen_in es).
Proof.
  intros c gs n pre xs Hc Hl Hn Hps Hok Hpre Hpr Hnd.
  assert (Hsend : Forall (fun g => Forall sendable (fst g)) gs).
  { apply Forall_forall. intros g Hg. apply Forall_forall. intros p Hp. rewrite Forall_forall in Hok. apply Hok.
    apply in_concat. exists (fst g). split; [apply in_map; exact Hg|exact Hp]. }
  assert (Hni : Forall (fun p => not_idle p = true) (concat (map fst gs))).
  { eapply Forall_impl; [|exact Hok]. intros p [_ Hp]. destruct p as [|x p]; [discriminate|]. cbn [is_logon] in Hp. unfold not_idle. cbn [nth].
    apply Z.eqb_eq in Hp. subst x. reflexivity. }
  destruct (groups_tracked c gs n Hc Hl Hsend Hni Hn) as (h & rs & tx & Htx & _). exists rs, tx. split; [exact Htx|].
  intros x Hx I E m able Hk i dos s es He Hid Hdos Hnd1 Hno Hnf Hrun Hal.
  destruct (in_split _ _ Hx) as (l1 & l2 & ->).
  rewrite Forall_app in Hpr. destruct Hpr as [P1 P2]. inversion P2 as [|? ? (S1 & S2 & a & b & A1 & A2 & A3 & A4) P3]; subst.
  assert (Hoff : forall l, Forall proper l -> ~ In (of_id x) (map of_id l) -> Forall (not_for (of_id x)) (flat_map offered l)).
  { clear. intros l Hp Hn. apply Forall_forall. intros p Hp'. apply in_flat_map in Hp'. destruct Hp' as (y & Hy & Hp').
    rewrite Forall_forall in Hp. destruct (Hp y Hy) as (S1 & _ & a & b & A1 & _). destruct Hp' as [<-|[<-|[]]].
    - destruct (says_id _ _ S1) as [_ K]. intros [K' _]. lia.
    - destruct (says_assign_at _ _ _ _ A1) as (K & _). intros [_ K']. apply Hn. apply in_map_iff. exists y. split; [congruence|exact Hy]. }
  rewrite map_app in Hnd. cbn [map] in Hnd. pose proof (NoDup_remove_2 _ _ _ Hnd) as Hni2.
  assert (F1 := Hoff l1 P1 ltac:(intros K; apply Hni2, in_or_app; auto)). assert (F2 := Hoff l2 P3 ltac:(intros K; apply Hni2, in_or_app; auto)).
  assert (Hps' : concat (map fst gs) = (pre ++ flat_map offered l1) ++ of_select x :: [] ++ of_assign x :: flat_map offered l2).
  { rewrite Hps, flat_map_app, app_assoc. reflexivity. }
  assert (Hf : Forall (not_for (of_id x)) ((pre ++ flat_map offered l1) ++ [] ++ flat_map offered l2)).
  { cbn [List.app]. apply Forall_app. split; [|exact F2]. apply Forall_app. split; [|exact F1].
    eapply Forall_impl; [|exact Hpre]. intros p Hp [K _]. cbn beta in Hp. lia. }
  destruct (logged_on_over_track E m able Hk c gs n (of_id x) (of_address x) _ _ _ _ _ a b i Hc Hl Hn Hps' Hok Hf S1 S2 A1 A2 A3 A4 He Hid)
    as (rs' & tx' & Htx' & K).
  assert (rs' = rs) as -> by congruence. exact (K dos s es Hdos Hnd1 Hno Hnf Hrun Hal).
Qed.
