(** How long it takes until a decoder has obeyed a packet handed over *)
From Verif Require Import Prelude Address ZBits SpecCodec SpecTx TxProofs Tx RxState Rx CodecProofs CodecProofs2 RxLogic SpecRx
  RxBitProofs RxBitProofs2 RxBitProofs3 RxBitProofs4 RxBitProofs5 SpecExec SpecConf SpecCv SpecLogon SpecBidi SpecSafe SafeProofs2
  SpecLayout LayoutProofs4 LayoutProofs5 LayoutProofs6 SpecLayout2 LayoutProofs7 LayoutProofs8 ReplProofs ReplProofs3
  SpecStation StationProofs StationProofs2 StationProofs3 StationProofs4 AudibleProofs SpecPace PaceProofs PaceProofs2
  SpecLatency LatencyProofs LatencyProofs2 SpecReact.

(** ** Packets before and behind it *)

Lemma length_alternate : forall c ts f, length (alternate c f ts) = length ts.
Proof. intros c. induction ts as [|t ts IH]; intros f; [reflexivity|]. cbn [alternate length]. rewrite IH. reflexivity. Qed.

Lemma length_on_track : forall c p, length (on_track c p) =
  (length (match p with None => idle_halves | Some bs => packet_halves c bs end) + if cfg_bidi c then 5 else 0)%nat.
Proof. intros c p. unfold on_track. rewrite app_length, length_alternate. f_equal. destruct (cfg_bidi c); reflexivity. Qed.

Lemma finished_app : forall c a b n, (space c a <= n)%nat -> finished c (a ++ b) n = map bytes a ++ finished c b (n - space c a).
Proof.
  intros c. induction a as [|p a IH]; intros b n H.
  - cbn [List.app map]. unfold space. cbn [flat_map length]. rewrite Nat.sub_0_r. reflexivity.
  - change (p :: a) with ([p] ++ a) in H |- *. rewrite space_app in *.
    assert (Hp : space c [p] = length (on_track c p)) by (unfold space; cbn [flat_map]; rewrite app_nil_r; reflexivity).
    rewrite Hp, length_on_track in *. cbn [List.app map finished]. set (hs := match p with None => idle_halves | Some _ => _ end) in *.
    replace (n <? length hs)%nat with false by (symmetry; apply Nat.ltb_ge; lia).
    rewrite IH by lia. f_equal. f_equal. f_equal. lia.
Qed.

Lemma finished_behind : forall c h1 bs h2 ws, config_ok c -> history_ok c (h1 ++ Queued bs :: h2) ->
  Forall (fun p => (length p <= 18)%nat) (queued (h1 ++ Queued bs :: h2)) -> SpecTx.waiting h1 ws ->
  timed c (None :: started h1) - lasting (ticks h1) + (Z.of_nat (length ws) + 2) * longest c <= lasting (ticks h2) ->
  exists ps p q more, None :: started (h1 ++ Queued bs :: h2) = ps ++ Some bs :: p :: q /\ flat_map real ps = queued h1 /\
    finished c (None :: started (h1 ++ Queued bs :: h2)) (length (ticks (h1 ++ Queued bs :: h2))) = map bytes ps ++ bs :: bytes p :: more.
Proof.
  intros c h1 bs h2 ws Hc Hh Hq Hw Ht.
  pose proof (longest_pos c Hc) as Hlong.
  destruct (placed c h1 bs h2 ws Hc Hh Hq Hw ltac:(lia)) as (ps & p & r & q & rest & Hs & Hs1 & Hr1 & Hrest & Hsp & Hp & Hwl).
  assert (Hf := started_fits c _ Hh Hq). assert (Hpos := tracks_pos c (None :: started (h1 ++ Queued bs :: h2)) Hc).
  set (h := h1 ++ Queued bs :: h2) in *. set (A := (ps ++ [p]) ++ map Some (ws ++ [bs])) in *.
  assert (HsA : None :: started h = A ++ q) by (rewrite Hs; unfold A; apply app_assoc).
  assert (Etk : lasting (ticks h) = lasting (ticks h1) + lasting (ticks h2)) by (unfold h; rewrite ticks_app, lasting_app; reflexivity).
  assert (HA : timed c A + longest c <= lasting (ticks h)).
  { unfold A. rewrite timed_app. rewrite Hs1 in Ht. lia. }
  rewrite HsA in *. clear Hs.
  destruct q as [|p' q].
  { exfalso. rewrite app_nil_r in *. assert (K : lasting (ticks h) <= timed c A); [|lia].
    unfold timed. rewrite <- Hrest, lasting_app. rewrite <- Hrest in Hpos. apply Forall_app in Hpos. destruct Hpos as [_ Hpos].
    apply lasting_pos in Hpos. lia. }
  assert (Hsp' : (space c (A ++ [p']) <= length (ticks h))%nat).
  { unfold space. apply (longer _ (flat_map (on_track c) q) _ rest).
    - rewrite Hrest, <- flat_map_app, <- app_assoc. reflexivity.
    - rewrite <- flat_map_app, <- app_assoc. exact Hpos.
    - change (lasting (flat_map (on_track c) (A ++ [p']))) with (timed c (A ++ [p'])). rewrite timed_app.
      assert (K : timed c [p'] <= longest c); [|lia]. apply Forall_app in Hf. destruct Hf as [_ Hf]. inversion Hf as [|? ? Hf1 Hf2]; subst.
      unfold timed. cbn [flat_map]. rewrite app_nil_r. apply lasting_on_track; assumption. }
  exists ((ps ++ [p]) ++ map Some ws), p', q, (finished c q (length (ticks h) - space c (A ++ [p']))).
  assert (HA2 : A = ((ps ++ [p]) ++ map Some ws) ++ [Some bs]) by (unfold A; rewrite map_app, !app_assoc; reflexivity).
  split; [rewrite HA2, <- app_assoc; reflexivity|]. split.
  - rewrite flat_map_app, <- Hs1, real_some. unfold SpecTx.waiting in Hw. rewrite Hw, sent_real. reflexivity.
  - change (p' :: q) with ([p'] ++ q). rewrite app_assoc, finished_app by exact Hsp'. rewrite HA2, !map_app, <- !app_assoc. reflexivity.
Qed.

(** ** The decoder *)

Section React.
  Context {I : Type} (E : Env I) (m : I -> Z -> Z) (able : access -> Prop) (time : I -> Z)
    (Hk : keeps_cvs able E m) (HE : short_cv1 E) (HC : clock E time).

  Lemma pace_history : forall c h i dos, 0 <= time i -> config_ok c -> history_ok c h ->
    (forall bs, In bs (queued h) -> packet_ok bs /\ complete bs) ->
    filter is_receive dos = map OReceive (map fst (ticks h)) -> ~ In ODisable dos -> paced c dos -> on_time dos ->
    exists s es done left, run E (OInit :: dos) (st0 i) = Ok (tt, s, es) /\
      finished c (None :: started h) (length (ticks h)) = done ++ left /\ (length left <= 1)%nat /\
      let x := obey_all (e_east_west E) done (new_view (m i)) in
      Forall (allowed able) (snd x) ->
      seen_in es = snd x /\ (forall a, m (Rx.app s) a = v_cvs (fst x) a) /\
      in_service s = v_service (fst x) /\ page s = v_page (fst x).
  Proof.
    intros c h i dos Hi Hc Hh Hq Hdos Hnd Hex Hon.
    assert (Hq1 : Forall packet_ok (queued h)) by (apply Forall_forall; intros bs Hb; apply (Hq bs Hb)).
    assert (Hq2 : Forall complete (queued h)) by (apply Forall_forall; intros bs Hb; apply (Hq bs Hb)).
    destruct (station_pace c h dos Hc Hh Hq1 Hdos Hnd Hex) as [Hnf Hle].
    destruct (known_total E time HE HC c h i dos Hi Hc Hh Hq1 Hq2 Hdos Hnd Hnf Hon) as (s & es & Hrun).
    assert (Hnf1 : never_full (OInit :: dos) listener0).
    { intros [|a os1] os2 He; [cbn; lia|]. cbn [List.app] in He. injection He as <- He. exact (Hnf os1 os2 He). }
    assert (Hnd1 : ~ In ODisable (OInit :: dos)) by (intros [H|H]; [discriminate H|exact (Hnd H)]).
    destruct (known_history E c h i (OInit :: dos) s es Hc Hh Hq1 Hdos Hnd1 Hnf1 Hrun) as [Hfin Hlo].
    pose proof (run_refines E (OInit :: dos) listener0 (st0 i) s es (Rl0 i) Hrun) as (_ & Hqu & _).
    exists s, es, (SpecRx.taken dos listener0), (r_deque (rxs s)). split; [exact Hrun|].
    split; [symmetry; exact Hfin|]. split; [rewrite Hqu; exact Hle|]. exact (layout E m able Hk dos i s es Hrun Hlo).
  Qed.

  Lemma reaction_left : forall c h1 bs h2 ws i, 0 <= time i -> config_ok c -> history_ok c (h1 ++ Queued bs :: h2) ->
    Forall (fun p => (length p <= 18)%nat) (queued (h1 ++ Queued bs :: h2)) ->
    (forall p, In p (queued (h1 ++ Queued bs :: h2)) -> packet_ok p /\ complete p) -> SpecTx.waiting h1 ws ->
    timed c (None :: started h1) - lasting (ticks h1) + (Z.of_nat (length ws) + 2) * longest c <= lasting (ticks h2) ->
    exists ps qs, handed_over ps = queued h1 /\ begins_with (queued h2) (handed_over qs) /\
    forall dos, filter is_receive dos = map OReceive (map fst (ticks (h1 ++ Queued bs :: h2))) -> ~ In ODisable dos ->
      paced c dos -> on_time dos -> has_obeyed E m able i (contents ps) bs (contents qs) dos.
  Proof.
    intros c h1 bs h2 ws i Hi Hc Hh Hq18 Hpk Hw Ht.
    destruct (finished_behind c h1 bs h2 ws Hc Hh Hq18 Hw Ht) as (ps & p & q & more & Hs & Hps & Hfin).
    exists ps, (p :: q). split; [exact Hps|]. split.
    { destruct (waiting_three c _ Hh) as (ws' & Hw' & _). exists ws'. unfold SpecTx.waiting in Hw'. rewrite sent_real in Hw'.
      assert (K : flat_map real (started (h1 ++ Queued bs :: h2)) = flat_map real (ps ++ Some bs :: p :: q)) by (rewrite <- Hs; reflexivity).
      rewrite K, flat_map_app, Hps, queued_app, <- app_assoc in Hw'. apply app_inv_head in Hw'.
      change (queued (Queued bs :: h2)) with (bs :: queued h2) in Hw'. change (flat_map real (Some bs :: p :: q)) with (bs :: handed_over (p :: q)) in Hw'.
      injection Hw' as Hw'. exact Hw'. }
    intros dos Hdos Hnd Hex Hon.
    destruct (pace_history c _ i dos Hi Hc Hh) as (s & es & done & left & Hr & Hdone & Hleft & Hobey); try assumption.
    assert (Hq : exists r, contents (p :: q) = (bytes p :: more) ++ r).
    { destruct (finished_prefix c (None :: started (h1 ++ Queued bs :: h2)) (length (ticks (h1 ++ Queued bs :: h2)))) as (r & Hr1).
      rewrite Hfin, Hs, map_app, <- app_assoc in Hr1. apply app_inv_head in Hr1. cbn [map] in Hr1. change (bytes (Some bs)) with bs in Hr1.
      rewrite <- app_comm_cons in Hr1. injection Hr1 as Hr1. exists r. symmetry. cbn [List.app]. change (contents (p :: q)) with (bytes p :: map bytes q). f_equal. exact Hr1. }
    destruct Hq as (rest & Hq). rewrite Hfin in Hdone.
    assert (Hd : exists more' u, done = map bytes ps ++ bs :: more' /\ contents (p :: q) = more' ++ u).
    { rewrite Hq. clear - Hdone Hleft. destruct left as [|y [|? ?]].
      - exists (bytes p :: more), rest. rewrite app_nil_r in Hdone. auto.
      - assert (Hne : bytes p :: more <> []) by discriminate. apply exists_last in Hne. destruct Hne as (l & z & Hz).
        exists l, (z :: rest). rewrite Hz in *. change (map bytes ps ++ bs :: l ++ [z]) with (map bytes ps ++ (bs :: l) ++ [z]) in Hdone.
        rewrite app_assoc in Hdone. apply app_inj_tail in Hdone. split; [symmetry; apply Hdone|rewrite <- app_assoc; reflexivity].
      - cbn in Hleft. lia. }
    destruct Hd as (more' & u & -> & Hu). exists s, es, more', u. split; [exact Hr|]. split; [exact Hu|]. exact Hobey.
  Qed.

  Theorem reaction : forall c ops1 bs ops2 xs1 x xs2 tx i, 0 <= time i -> config_ok c -> Forall plain_op (ops1 ++ TBytes bs :: ops2) ->
    (forall p, In (TBytes p) (ops1 ++ TBytes bs :: ops2) -> packet_ok p /\ complete p) ->
    tx_run (TInit c :: ops1 ++ TBytes bs :: ops2) (tx_init_state 4) = Ok ((None, []) :: xs1 ++ x :: xs2, tx) -> length xs1 = length ops1 ->
    exists h1 ws, flat_map call_of h1 = ops1 /\ flat_map result_of h1 = xs1 /\ history_ok c h1 /\ SpecTx.waiting h1 ws /\
    ((length ws < 3)%nat -> (Z.of_nat (length ws) + 3) * longest c <= lasting (intervals xs2) ->
     exists h2 ps qs, flat_map call_of h2 = ops2 /\ flat_map result_of h2 = xs2 /\ history_ok c (h1 ++ Queued bs :: h2) /\
     handed_over ps = queued h1 /\ begins_with (queued h2) (handed_over qs) /\
     forall dos, filter is_receive dos = map OReceive (map fst (intervals (xs1 ++ x :: xs2))) -> ~ In ODisable dos ->
       paced c dos -> on_time dos -> has_obeyed E m able i (contents ps) bs (contents qs) dos).
  Proof.
    intros c ops1 bs ops2 xs1 x xs2 tx i Hi Hc Hops Hpk Hrun Hlen.
    destruct (run_cut c ops1 bs ops2 xs1 x xs2 tx Hc Hops Hrun Hlen) as (h1 & e & h2 & Hh & He & H1 & Hr1 & H2 & Hr2 & -> & Hcall & Hres).
    destruct (Hh h1 e h2 eq_refl) as (ws & Hw & Hj). exists h1, ws. split; [exact H1|]. split; [exact Hr1|]. split; [exact (history_app _ _ _ Hh)|]. split; [exact Hw|].
    intros Hl Ht. rewrite <- Hr2, intervals_ticks in Ht.
    assert (Hq18 : Forall (fun p => (length p <= 18)%nat) (queued (h1 ++ e :: h2))) by (apply queued_plain; rewrite Hcall; exact Hops).
    destruct He as [-> | ->]; [|cbn in Hj; lia].
    assert (Hr : timed c (None :: started h1) - lasting (ticks h1) <= longest c).
    { apply rest_le; [exact Hc|exact (history_app _ _ _ Hh)|]. rewrite queued_app in Hq18. apply Forall_app in Hq18. apply Hq18. }
    rewrite <- Hres, intervals_ticks. exists h2. destruct (reaction_left c h1 bs h2 ws i) as (ps & qs & Hps & Hqs & Hd); try assumption; [|lia|].
    2:{ exists ps, qs. auto 10. }
    intros b Hb. apply Hpk. rewrite <- Hcall. apply queued_calls. exact Hb.
  Qed.

  Theorem reaction_apart : forall c ops1 bs ops2 xs1 x xs2 tx i, 0 <= time i -> config_ok c -> Forall plain_op (ops1 ++ TBytes bs :: ops2) ->
    (forall p, In (TBytes p) (ops1 ++ TBytes bs :: ops2) -> packet_ok p /\ complete p) ->
    tx_run (TInit c :: ops1 ++ TBytes bs :: ops2) (tx_init_state 4) = Ok ((None, []) :: xs1 ++ x :: xs2, tx) -> length xs1 = length ops1 ->
    apart (longest c) (longest c) (combine (ops1 ++ TBytes bs :: ops2) (xs1 ++ x :: xs2)) = true ->
    3 * longest c <= lasting (intervals xs2) ->
    exists ps qs, handed_over ps = asked ops1 /\ begins_with (asked ops2) (handed_over qs) /\
    forall dos, filter is_receive dos = map OReceive (map fst (intervals (xs1 ++ x :: xs2))) -> ~ In ODisable dos ->
      paced c dos -> on_time dos -> has_obeyed E m able i (contents ps) bs (contents qs) dos.
  Proof.
    intros c ops1 bs ops2 xs1 x xs2 tx i Hi Hc Hops Hpk Hrun Hlen Ha Ht.
    destruct (run_cut c ops1 bs ops2 xs1 x xs2 tx Hc Hops Hrun Hlen) as (h1 & e & h2 & Hh & He & H1 & Hr1 & H2 & Hr2 & Ex & Hcall & Hres).
    rewrite <- Hcall, <- Hres, pairs_combine in Ha. apply apart_spaced in Ha. pose proof Hops as Hq. rewrite <- Hcall in Hq. apply queued_plain in Hq.
    pose proof (spaced_accepted c _ Hc Hh Hq Ha) as Hn.
    assert (Hask : forall g, (forall b, ~ In (Refused b) g) -> queued g = asked (flat_map call_of g)).
    { clear. unfold asked. intros g Hn. induction g as [|e1 g IH]; [reflexivity|]. unfold queued in *. cbn [flat_map].
      rewrite flat_map_app, <- IH by (intros b Hb; apply (Hn b); right; exact Hb).
      destruct e1 as [q|q|q|q]; try reflexivity. contradiction (Hn q). left. reflexivity. }
    assert (Hq1 : queued h1 = asked ops1) by (rewrite <- H1; apply Hask; intros b Hb; apply (Hn b); apply in_or_app; auto).
    assert (Hq2 : queued h2 = asked ops2) by (rewrite <- H2; apply Hask; intros b Hb; apply (Hn b); apply in_or_app; right; right; exact Hb).
    rewrite <- Hr2, intervals_ticks in Ht. rewrite <- Hres, intervals_ticks, <- Hq1, <- Hq2. destruct He as [-> | ->].
    2:{ contradiction (Hn bs). apply in_or_app. right. left. reflexivity. }
    assert (Hh1 : history_ok c (h1 ++ [Queued bs])) by (apply (history_app c _ h2); rewrite <- app_assoc; exact Hh).
    destruct (little_work c Hc h1 (Queued bs) Hh1) as (ws & Hw & Hl).
    { rewrite queued_app in *. cbn [queued flat_map List.app] in *. apply Forall_app in Hq. destruct Hq as [Hqa Hqb]. inversion Hqb; subst. apply Forall_app. auto. }
    { apply (prefix_spaced _ _ h2). rewrite <- app_assoc. exact Ha. }
    { discriminate. }
    apply (reaction_left c h1 bs h2 ws); try assumption; [|unfold remains in Hl; lia].
    intros b Hb. apply Hpk. rewrite <- Hcall. apply queued_calls. exact Hb.
  Qed.
End React.
