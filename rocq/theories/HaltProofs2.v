(** An emergency stop handed to a command station has stopped all decoders *)
From Verif Require Import Prelude Address ZBits SpecCodec SpecTx TxProofs Tx RxState Rx CodecProofs CodecProofs2 RxLogic SpecRx
  RxBitProofs RxBitProofs2 RxBitProofs3 RxBitProofs4 RxBitProofs5 SpecExec SpecConf SpecCv SpecLogon SpecBidi SpecSafe SafeProofs2
  SpecLayout LayoutProofs4 LayoutProofs5 LayoutProofs6 SpecLayout2 LayoutProofs7 LayoutProofs8 ReplProofs ReplProofs3
  SpecStation StationProofs StationProofs2 StationProofs3 StationProofs4 AudibleProofs SpecPace PaceProofs PaceProofs2
  SpecLatency LatencyProofs LatencyProofs2 SpecReact ReactProofs SpecHalt HaltProofs.

Lemma idle_calm : ~ sets_speed [0xFF; 0x00; 0xFF] /\ ~ resets [0xFF; 0x00; 0xFF].
Proof. split; intros [H _]; cbn in H; intuition discriminate. Qed.

Lemma in_contents : forall (P : list Z -> Prop) ps, P [0xFF; 0x00; 0xFF] -> (forall p, In p (handed_over ps) -> P p) -> Forall P (contents ps).
Proof.
  intros P ps H0. induction ps as [|[p|] ps IH]; intros H; cbn [contents map]; constructor.
  - apply H. left. reflexivity.
  - apply IH. intros x Hx. apply H. right. exact Hx.
  - exact H0.
  - apply IH. intros x Hx. apply H. exact Hx.
Qed.

Section Stop.
  Context {I : Type} (E : Env I) (time : I -> Z) (HE : short_cv1 E) (HC : clock E time).

  Lemma paced_run : forall c h i dos, 0 <= time i -> config_ok c -> history_ok c h ->
    (forall bs, In bs (queued h) -> packet_ok bs /\ complete bs) ->
    filter is_receive dos = map OReceive (map fst (ticks h)) -> ~ In ODisable dos -> paced c dos -> on_time dos ->
    exists s es left, run E (OInit :: dos) (st0 i) = Ok (tt, s, es) /\
      finished c (None :: started h) (length (ticks h)) = SpecRx.taken (OInit :: dos) listener0 ++ left /\ (length left <= 1)%nat.
  Proof.
    intros c h i dos Hi Hc Hh Hq Hdos Hnd Hex Hon.
    assert (Hq1 : Forall packet_ok (queued h)) by (apply Forall_forall; intros bs Hb; apply (Hq bs Hb)).
    assert (Hq2 : Forall complete (queued h)) by (apply Forall_forall; intros bs Hb; apply (Hq bs Hb)).
    destruct (station_pace c h dos Hc Hh Hq1 Hdos Hnd Hex) as [Hnf Hle].
    destruct (known_total E time HE HC c h i dos Hi Hc Hh Hq1 Hq2 Hdos Hnd Hnf Hon) as (s & es & Hrun).
    assert (Hnf1 : never_full (OInit :: dos) listener0).
    { intros [|a os1] os2 He; [cbn; lia|]. cbn [List.app] in He. injection He as <- He. exact (Hnf os1 os2 He). }
    assert (Hnd1 : ~ In ODisable (OInit :: dos)) by (intros [H|H]; [discriminate H|exact (Hnd H)]).
    destruct (known_history E c h i (OInit :: dos) s es Hc Hh Hq1 Hdos Hnd1 Hnf1 Hrun) as [Hfin Hlo].
    pose proof (run_refines E (OInit :: dos) listener0 (st0 i) s es (Rl0 i) Hrun) as (_ & Hqu & _).
    exists s, es, (r_deque (rxs s)). split; [exact Hrun|]. split; [symmetry; exact Hfin|]. rewrite Hqu. exact Hle.
  Qed.

  Lemma stop_left : forall c h1 bs h2 ws i, 0 <= time i -> config_ok c -> history_ok c (h1 ++ Queued bs :: h2) ->
    Forall (fun p => (length p <= 18)%nat) (queued (h1 ++ Queued bs :: h2)) ->
    (forall p, In p (queued (h1 ++ Queued bs :: h2)) -> packet_ok p /\ complete p) ->
    stops_all bs -> (forall p, In p (queued h1) -> ~ resets p) -> (forall p, In p (queued h2) -> ~ sets_speed p) -> SpecTx.waiting h1 ws ->
    timed c (None :: started h1) - lasting (ticks h1) + (Z.of_nat (length ws) + 2) * longest c <= lasting (ticks h2) ->
    forall dos, filter is_receive dos = map OReceive (map fst (ticks (h1 ++ Queued bs :: h2))) -> ~ In ODisable dos ->
      paced c dos -> on_time dos -> halted E i dos.
  Proof.
    intros c h1 bs h2 ws i Hi Hc Hh Hq18 Hpk Hst Hr1 Hr2 Hw Ht dos Hdos Hnd Hex Hon.
    destruct (finished_behind c h1 bs h2 ws Hc Hh Hq18 Hw Ht) as (ps & p & q & more & Hs & Hps & Hfin).
    assert (Hqs : begins_with (queued h2) (handed_over (p :: q))).
    { destruct (waiting_three c _ Hh) as (ws' & Hw' & _). exists ws'. unfold SpecTx.waiting in Hw'. rewrite sent_real in Hw'.
      assert (K : flat_map real (started (h1 ++ Queued bs :: h2)) = flat_map real (ps ++ Some bs :: p :: q)) by (rewrite <- Hs; reflexivity).
      rewrite K, flat_map_app, Hps, queued_app, <- app_assoc in Hw'. apply app_inv_head in Hw'.
      change (queued (Queued bs :: h2)) with (bs :: queued h2) in Hw'. change (flat_map real (Some bs :: p :: q)) with (bs :: handed_over (p :: q)) in Hw'.
      injection Hw' as Hw'. exact Hw'. }
    destruct (paced_run c _ i dos Hi Hc Hh Hpk Hdos Hnd Hex Hon) as (s & es & left & Hr & Hdone & Hleft).
    assert (Hq : exists r, contents (p :: q) = (bytes p :: more) ++ r).
    { destruct (finished_prefix c (None :: started (h1 ++ Queued bs :: h2)) (length (ticks (h1 ++ Queued bs :: h2)))) as (r & Hr0).
      rewrite Hfin, Hs, map_app, <- app_assoc in Hr0. apply app_inv_head in Hr0. cbn [map] in Hr0. change (bytes (Some bs)) with bs in Hr0.
      rewrite <- app_comm_cons in Hr0. injection Hr0 as Hr0. exists r. symmetry. cbn [List.app]. change (contents (p :: q)) with (bytes p :: map bytes q). f_equal. exact Hr0. }
    destruct Hq as (rest & Hq). rewrite Hfin in Hdone.
    assert (Hd : exists more' u, SpecRx.taken (OInit :: dos) listener0 = map bytes ps ++ bs :: more' /\ contents (p :: q) = more' ++ u).
    { rewrite Hq. clear - Hdone Hleft. destruct left as [|y [|? ?]].
      - exists (bytes p :: more), rest. rewrite app_nil_r in Hdone. auto.
      - assert (Hne : bytes p :: more <> []) by discriminate. apply exists_last in Hne. destruct Hne as (l & z & Hz).
        exists l, (z :: rest). rewrite Hz in *. change (map bytes ps ++ bs :: l ++ [z]) with (map bytes ps ++ (bs :: l) ++ [z]) in Hdone.
        rewrite app_assoc in Hdone. apply app_inj_tail in Hdone. split; [symmetry; apply Hdone|rewrite <- app_assoc; reflexivity].
      - cbn in Hleft. lia. }
    destruct Hd as (more' & u & Htk & Hu). destruct idle_calm as [Hi1 Hi2].
    destruct (stopped E _ _ _ _ _ _ _ Hr Htk Hst) as (before & Hb).
    - apply (in_contents (fun p => ~ resets p) ps Hi2). intros x Hx. apply Hr1. unfold handed_over in Hx. change (In x (flat_map real ps)) in Hx. rewrite Hps in Hx. exact Hx.
    - assert (K : Forall (fun p => ~ sets_speed p) (contents (p :: q))).
      { apply in_contents; [exact Hi1|]. intros x Hx. apply Hr2. destruct Hqs as (r & ->). apply in_or_app. left. exact Hx. }
      rewrite Hu in K. apply Forall_app in K. apply K.
    - exists s, es, before. split; assumption.
  Qed.
End Stop.

Theorem all_stop : forall c ops1 bs ops2 xs1 x xs2 tx, config_ok c -> Forall plain_op (ops1 ++ TBytes bs :: ops2) ->
  (forall p, In (TBytes p) (ops1 ++ TBytes bs :: ops2) -> packet_ok p /\ complete p) ->
  stops_all bs -> (forall p, In (TBytes p) ops1 -> ~ resets p) -> (forall p, In (TBytes p) ops2 -> ~ sets_speed p) ->
  tx_run (TInit c :: ops1 ++ TBytes bs :: ops2) (tx_init_state 4) = Ok ((None, []) :: xs1 ++ x :: xs2, tx) -> length xs1 = length ops1 ->
  exists h1 ws, flat_map call_of h1 = ops1 /\ flat_map result_of h1 = xs1 /\ history_ok c h1 /\ SpecTx.waiting h1 ws /\
  ((length ws < 3)%nat -> (Z.of_nat (length ws) + 3) * longest c <= lasting (intervals xs2) ->
   forall (I : Type) (E : Env I) (time : I -> Z) i dos, short_cv1 E -> clock E time -> 0 <= time i ->
     filter is_receive dos = map OReceive (map fst (intervals (xs1 ++ x :: xs2))) -> ~ In ODisable dos ->
     paced c dos -> on_time dos -> halted E i dos).
Proof.
  intros c ops1 bs ops2 xs1 x xs2 tx Hc Hops Hpk Hst Hn1 Hn2 Hrun Hlen.
  destruct (run_cut c ops1 bs ops2 xs1 x xs2 tx Hc Hops Hrun Hlen) as (h1 & e & h2 & Hh & He & H1 & Hr1 & H2 & Hr2 & -> & Hcall & Hres).
  destruct (Hh h1 e h2 eq_refl) as (ws & Hw & Hj). exists h1, ws. split; [exact H1|]. split; [exact Hr1|]. split; [exact (history_app _ _ _ Hh)|]. split; [exact Hw|].
  intros Hl Ht I E time i dos HE HC Hi Hdos Hnd Hex Hon. rewrite <- Hr2, intervals_ticks in Ht.
  assert (Hq18 : Forall (fun p => (length p <= 18)%nat) (queued (h1 ++ e :: h2))) by (apply queued_plain; rewrite Hcall; exact Hops).
  destruct He as [-> | ->]; [|cbn in Hj; lia].
  assert (Hr : timed c (None :: started h1) - lasting (ticks h1) <= longest c).
  { apply rest_le; [exact Hc|exact (history_app _ _ _ Hh)|]. rewrite queued_app in Hq18. apply Forall_app in Hq18. apply Hq18. }
  rewrite <- Hres, intervals_ticks in Hdos. apply (stop_left E time HE HC c h1 bs h2 ws i); try assumption.
  - intros b Hb. apply Hpk. rewrite <- Hcall. apply queued_calls. exact Hb.
  - intros b Hb. apply Hn1. rewrite <- H1. apply queued_calls. exact Hb.
  - intros b Hb. apply Hn2. rewrite <- H2. apply queued_calls. exact Hb.
  - lia.
Qed.

Theorem all_stop_apart : forall c ops1 bs ops2 xs1 x xs2 tx, config_ok c -> Forall plain_op (ops1 ++ TBytes bs :: ops2) ->
  (forall p, In (TBytes p) (ops1 ++ TBytes bs :: ops2) -> packet_ok p /\ complete p) ->
  stops_all bs -> (forall p, In (TBytes p) ops1 -> ~ resets p) -> (forall p, In (TBytes p) ops2 -> ~ sets_speed p) ->
  tx_run (TInit c :: ops1 ++ TBytes bs :: ops2) (tx_init_state 4) = Ok ((None, []) :: xs1 ++ x :: xs2, tx) -> length xs1 = length ops1 ->
  apart (longest c) (longest c) (combine (ops1 ++ TBytes bs :: ops2) (xs1 ++ x :: xs2)) = true ->
  3 * longest c <= lasting (intervals xs2) ->
  forall (I : Type) (E : Env I) (time : I -> Z) i dos, short_cv1 E -> clock E time -> 0 <= time i ->
    filter is_receive dos = map OReceive (map fst (intervals (xs1 ++ x :: xs2))) -> ~ In ODisable dos ->
    paced c dos -> on_time dos -> halted E i dos.
Proof.
  intros c ops1 bs ops2 xs1 x xs2 tx Hc Hops Hpk Hst Hn1 Hn2 Hrun Hlen Ha Ht I E time i dos HE HC Hi Hdos Hnd Hex Hon.
  destruct (run_cut c ops1 bs ops2 xs1 x xs2 tx Hc Hops Hrun Hlen) as (h1 & e & h2 & Hh & He & H1 & Hr1 & H2 & Hr2 & Ex & Hcall & Hres).
  rewrite <- Hcall, <- Hres, pairs_combine in Ha. apply apart_spaced in Ha. pose proof Hops as Hq. rewrite <- Hcall in Hq. apply queued_plain in Hq.
  pose proof (spaced_accepted c _ Hc Hh Hq Ha) as Hn.
  rewrite <- Hr2, intervals_ticks in Ht. rewrite <- Hres, intervals_ticks in Hdos. destruct He as [-> | ->].
  2:{ contradiction (Hn bs). apply in_or_app. right. left. reflexivity. }
  assert (Hh1 : history_ok c (h1 ++ [Queued bs])) by (apply (history_app c _ h2); rewrite <- app_assoc; exact Hh).
  destruct (little_work c Hc h1 (Queued bs) Hh1) as (ws & Hw & Hl).
  { rewrite queued_app in *. cbn [queued flat_map List.app] in *. apply Forall_app in Hq. destruct Hq as [Hqa Hqb]. inversion Hqb; subst. apply Forall_app. auto. }
  { apply (prefix_spaced _ _ h2). rewrite <- app_assoc. exact Ha. }
  { discriminate. }
  apply (stop_left E time HE HC c h1 bs h2 ws i); try assumption; [| | |unfold remains in Hl; lia].
  - intros b Hb. apply Hpk. rewrite <- Hcall. apply queued_calls. exact Hb.
  - intros b Hb. apply Hn1. rewrite <- H1. apply queued_calls. exact Hb.
  - intros b Hb. apply Hn2. rewrite <- H2. apply queued_calls. exact Hb.
Qed.
