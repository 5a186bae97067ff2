(** A decoder that hears a station after anything else *)
From Verif Require Import Prelude Address ZBits SpecCodec SpecTx TxProofs Tx RxState Rx CodecProofs CodecProofs2 RxLogic SpecRx
  RxBitProofs RxBitProofs2 RxBitProofs3 RxBitProofs4 RxBitProofs5 SpecExec SpecConf SpecCv SpecLogon SpecBidi SpecSafe SafeProofs2
  SpecLayout LayoutProofs4 LayoutProofs5 LayoutProofs6 SpecLayout2 LayoutProofs7 LayoutProofs8 ReplProofs ReplProofs3
  SpecStation StationProofs StationProofs2 StationProofs4 AudibleProofs SpecPace PaceProofs PaceProofs2 SpecLate LateProofs.

(** ** Ones after anything *)

(** Registers as they are between calls *)
Definition sane (f : fsm) : Prop :=
  match f_state f with
  | Preamble | Startbit => f_byte f = 0 /\ f_checksum f = 0
  | Data => (f_bit_count f < 8)%nat
  | Endbit => True
  end.

Lemma Inv_sane : forall h f, Inv h f -> sane f.
Proof.
  intros h f H. unfold Inv, sane in *. destruct (f_state f); try tauto.
  destruct H as (_ & _ & _ & n & x & body & bits & _ & _ & _ & _ & _ & H & _). exact H.
Qed.

Lemma quiet_ones : forall n j f, quiet j f -> arun f (repeat true n) = [].
Proof.
  induction n as [|n IH]; intros j f Hq; [reflexivity|]. destruct f as [ph bc by_ ck hb pk pe]. destruct Hq as (H1 & H2 & H3 & H4).
  cbn in H1, H2, H3, H4. subst. cbn [repeat arun]. unfold mstep, machine_hb, machine_bit. cbn -[arun repeat].
  apply (IH (S j)). repeat split.
Qed.

(** Ones that complete or end whatever there is *)
Definition settles (k : nat) (f : fsm) : Prop := forall n, fits f (repeat true n) ->
  (length (arun f (repeat true n)) <= 1)%nat /\ ((k <= n)%nat -> exists k', (k' <= k)%nat /\ (length (arun f (repeat true k')) <= 1)%nat /\ exists j, quiet j (fst (mrun f (repeat true k')))).

Lemma settles_step : forall k f, arun f [true] = [] ->
  (snd (machine_hb false f true) <> AOverflow -> settles k (fst (mstep f true))) -> settles (S k) f.
Proof.
  intros k f Ha H n Hf. destruct n as [|n]; [split; [cbn; lia|lia]|]. cbn [repeat fits] in Hf. destruct Hf as [Hf0 Hf].
  destruct (H Hf0 n Hf) as [L H1].
  assert (E : forall m, arun f (repeat true (S m)) = arun (fst (mstep f true)) (repeat true m)).
  { intros m. change (repeat true (S m)) with ([true] ++ repeat true m). rewrite arun_app, Ha. cbn [mrun List.app].
    destruct (mstep f true). reflexivity. }
  split; [rewrite E; exact L|]. intros Hk. destruct (H1 ltac:(lia)) as (k' & H2 & H3 & j & H4).
  exists (S k'). split; [lia|]. rewrite E. split; [exact H3|]. exists j.
  change (repeat true (S k')) with ([true] ++ repeat true k'). rewrite fst_mrun_app. cbn [mrun].
  destruct (mstep f true) as [f1 p1]. cbn [fst] in *. exact H4.
Qed.

Lemma settles_more : forall k k' f, settles k f -> (k <= k')%nat -> settles k' f.
Proof.
  intros k k' f H Hk n Hf. destruct (H n Hf) as [L H1]. split; [exact L|]. intros Hn.
  destruct (H1 ltac:(lia)) as (a & H2 & H3). exists a. split; [lia|exact H3].
Qed.

Lemma settles_end : forall bc by_ ck pk pe, settles 1 (Mk_fsm Endbit bc by_ ck true pk pe).
Proof.
  intros bc by_ ck pk pe n _.
  assert (Q : quiet 0 (fst (mstep (Mk_fsm Endbit bc by_ ck true pk pe) true)) /\ (length (arun (Mk_fsm Endbit bc by_ ck true pk pe) [true]) <= 1)%nat).
  { cbn [repeat arun mrun]. unfold mstep, machine_hb, machine_bit. cbn -[Nat.leb length is_logon Z.eqb].
    destruct ((ck =? 0) && (3 <=? length pk)%nat); cbn; (split; [repeat split|lia]). }
  destruct Q as [Q1 Q2]. split.
  - destruct n as [|n]; [cbn; lia|]. change (repeat true (S n)) with ([true] ++ repeat true n). rewrite arun_app, app_length.
    cbn [mrun]. destruct (mstep _ true) as [f1 p1] eqn:E. cbn [fst] in Q1 |- *. rewrite (quiet_ones n 0 f1 Q1). cbn [length]. lia.
  - intros _. exists 1%nat. split; [lia|]. split; [exact Q2|]. exists 0%nat. cbn [repeat mrun].
    destruct (mstep _ true) as [f1 p1]. exact Q1.
Qed.

Lemma settles_end2 : forall bc by_ ck pk pe, settles 2 (Mk_fsm Endbit bc by_ ck false pk pe).
Proof. intros bc by_ ck pk pe. apply settles_step; [reflexivity|]. intros _. cbn -[settles]. apply settles_end. Qed.

Lemma settles_data : forall d bc by_ ck (hb : bool) pk pe, (bc + d = 7)%nat ->
  settles (2 * d + (if hb then 3 else 4)) (Mk_fsm Data bc by_ ck hb pk pe).
Proof.
  assert (T : forall d, (forall bc by_ ck pk pe, (bc + d = 7)%nat -> settles (2 * d + 3) (Mk_fsm Data bc by_ ck true pk pe)) ->
     forall bc by_ ck pk pe, (bc + d = 7)%nat -> settles (2 * d + 4) (Mk_fsm Data bc by_ ck false pk pe)).
  { intros d H bc by_ ck pk pe Hd. replace (2 * d + 4)%nat with (S (2 * d + 3)) by lia.
    apply settles_step; [reflexivity|]. intros _. exact (H bc by_ ck pk false Hd). }
  assert (F : forall d bc by_ ck pk pe, (bc + d = 7)%nat -> settles (2 * d + 3) (Mk_fsm Data bc by_ ck true pk pe)).
  { induction d as [|d IH]; intros bc by_ ck pk pe Hd.
    - replace (2 * 0 + 3)%nat with 3%nat by lia. apply settles_step.
      + cbn [arun]. unfold mstep, machine_hb, machine_bit. cbn -[Nat.ltb length u8].
        replace (S bc <? 8)%nat with false by (symmetry; apply Nat.ltb_ge; lia).
        destruct (length pk <? 18)%nat; reflexivity.
      + unfold mstep, machine_hb, machine_bit. cbn -[Nat.ltb length u8 settles].
        replace (S bc <? 8)%nat with false by (symmetry; apply Nat.ltb_ge; lia).
        destruct (length pk <? 18)%nat eqn:El; cbn [fst snd]; intros Hno; [apply settles_end2|congruence].
    - replace (2 * S d + 3)%nat with (S (2 * d + 4)) by lia. apply settles_step.
      + cbn [arun]. unfold mstep, machine_hb, machine_bit. cbn -[Nat.ltb length u8].
        replace (S bc <? 8)%nat with true by (symmetry; apply Nat.ltb_lt; lia). reflexivity.
      + intros _. unfold mstep, machine_hb, machine_bit. cbn -[Nat.ltb length u8 settles Nat.mul].
        replace (S bc <? 8)%nat with true by (symmetry; apply Nat.ltb_lt; lia). cbn [fst].
        apply T; [exact IH|lia]. }
  intros d bc by_ ck hb pk pe Hd. destruct hb; [apply F; exact Hd|]. apply T; [apply F|exact Hd].
Qed.

Lemma settles_all : forall f, sane f -> settles 19 f.
Proof.
  intros [ph bc by_ ck hb pk pe] H. unfold sane in H. cbn in H. destruct ph.
  - assert (Q : quiet bc (Mk_fsm Preamble bc by_ ck hb pk pe)) by (destruct H as [-> ->]; repeat split).
    intros n _. rewrite (quiet_ones n _ _ Q). split; [cbn; lia|]. intros _. exists 0%nat.
    split; [lia|]. split; [cbn; lia|]. exists bc. exact Q.
  - destruct H as [-> ->]. apply settles_step; [reflexivity|]. intros _.
    exact (settles_data 7 0 0 0 false [] false eq_refl).
  - apply (settles_more (2 * (7 - bc) + (if hb then 3 else 4)) 19); [apply settles_data; lia|destruct hb; lia].
  - destruct hb; [apply (settles_more 1); [apply settles_end|lia]|apply (settles_more 2); [apply settles_end2|lia]].
Qed.

(** ** A station after anything *)

Lemma finished_0 : forall c ps, config_ok c -> Forall (fun p => packet_ok (bytes p)) ps -> finished c ps 0 = [].
Proof.
  intros c [|q ps] Hc Hps; [reflexivity|]. cbn [finished].
  assert (0 < length (halves c q))%nat.
  { inversion Hps; subst. rewrite (halves_length c q Hc), (doubled_bits c q Hc) by assumption. cbn [length]. lia. }
  destruct q; cbn [halves] in *; match goal with |- (if (?a <? ?b)%nat then _ else _) = _ => destruct (Nat.ltb_spec a b); [reflexivity|lia] end.
Qed.

(** Of a packet with too short a preamble nothing is heard *)
Lemma skip_run : forall c ps ess bs k rest, config_ok c -> Forall2 (heard_as c) ps ess -> Forall (fun p => packet_ok (bytes p)) ps ->
  packet_ok bs -> Forall (fun l => l = [] \/ l = [false]) rest -> length rest = (if cfg_bidi c then 5 else 0)%nat ->
  forall n j f, quiet j f -> (j + k < 20)%nat ->
  let hs := repeat true k ++ [false; false] ++ doubled (frame_bits bs) in
  arun f (concat (firstn n (map (fun b => [b]) hs ++ rest ++ concat ess))) =
    finished c ps (n - length hs - (if cfg_bidi c then 5 else 0)).
Proof.
  intros c ps ess bs k rest Hc H Hps Hp Hrest Hlr n j f Hq Hk hs.
  assert (HF : calm j hs /\ (trailing j hs < 20)%nat).
  { destruct (calm_frame bs) as [F1 F2]; [destruct Hp as (_ & Hq1 & _); lia|]. unfold hs.
    rewrite calm_ones, trailing_app by lia. split; [apply (calm_le _ _ _ F1); lia|].
    assert (G : forall n j, trailing j (repeat true n) = (j + n)%nat).
    { clear. induction n as [|n IH]; intros j; [cbn; lia|]. cbn [repeat trailing fold_left]. unfold trailing in IH. rewrite IH. lia. }
    rewrite G. pose proof (trailing_le ([false; false] ++ doubled (frame_bits bs)) 19 (j + k) ltac:(lia)). lia. }
  destruct HF as [C1 C2]. clearbody hs.
  rewrite firstn_app, map_length, concat_app, firstn_map, concat_singles, arun_app.
  destruct (Nat.lt_ge_cases n (length hs)) as [Hn|Hn].
  - replace (n - length hs)%nat with 0%nat by lia. rewrite firstn_O. cbn [concat arun Nat.sub]. rewrite app_nil_r.
    rewrite finished_0 by assumption. rewrite <- (firstn_skipn n hs) in C1. apply calm_app in C1.
    apply (calm_run _ j f Hq (proj1 C1)).
  - rewrite firstn_all2 by exact Hn. destruct (calm_run hs j f Hq C1) as (_ & -> & Q1). cbn [List.app].
    rewrite firstn_app, concat_app, Hlr, arun_app. set (m := (n - length hs)%nat).
    destruct (zeros_concat rest m Hrest) as (z & ->). set (T := trailing j hs) in *. clearbody T.
    assert (Hz : calm T (repeat false z) /\ (trailing T (repeat false z) < 20)%nat).
    { clear - C2. revert T C2. induction z as [|z IH]; intros T HT; [split; [exact Logic.I|exact HT]|]. cbn [repeat calm trailing fold_left].
      destruct (IH 0%nat ltac:(lia)) as [U V]. split; [split; [lia|exact U]|exact V]. }
    destruct Hz as [Z1 Z2]. destruct (calm_run _ T _ Q1 Z1) as (_ & -> & Q2). cbn [List.app].
    apply (stream_run c ps ess Hc H Hps _ _ _ Q2 Z2).
Qed.

Lemma resync : forall c ps n f, config_ok c -> Forall (fun p => packet_ok (bytes p)) ps -> sane f ->
  let hs := halves_of (firstn n (map fst (flat_map (on_track c) ps))) in
  fits f hs -> exists x k, arun f hs = x ++ skipn k (finished c ps n) /\ (length x <= 1)%nat /\ (k <= 1)%nat /\
    (k = 1%nat -> exists p ps', ps = p :: ps' /\ (preamble c p < 20)%nat).
Proof.
  intros c ps n f Hc Hps Hs hs Hf.
  destruct Hps as [|p ps Hp Hps].
  { exists [], 0%nat. unfold hs. cbn [flat_map map]. rewrite firstn_nil. cbn. repeat split; lia. }
  destruct (direct_heard c p Hc Hp) as (rest & Hd & Hrest & Hlr).
  pose proof (direct_all c ps Hc Hps) as Hall. set (ess := map (map halves_of) (map (direct c) ps)) in *.
  assert (Hp1 : (17 <= preamble_of c p)%nat) by (destruct Hc; destruct p; cbn; lia).
  set (P := (2 * preamble_of c p)%nat). assert (HP : (P = 2 * preamble_of c p)%nat) by reflexivity. clearbody P.
  set (F := [false; false] ++ doubled (frame_bits (bytes p))).
  assert (Hpl : length (halves c p) = (P + length F)%nat).
  { rewrite (halves_length c p Hc), (doubled_bits c p Hc Hp). cbn [length]. rewrite app_length, repeat_length. unfold F. lia. }
  assert (Ef : finished c (p :: ps) n = if (n <? P + length F)%nat then []
     else bytes p :: finished c ps (n - (P + length F) - (if cfg_bidi c then 5 else 0))) by (rewrite <- Hpl; destruct p; reflexivity).
  assert (Eh : hs = concat (firstn n (map (fun b => [b]) (repeat true P ++ F) ++ rest ++ concat ess))).
  { unfold hs. rewrite halves_of_singles, <- firstn_map, <- firstn_map. cbn [flat_map]. rewrite !map_app. fold (direct c p).
    rewrite Hd, track_halves. fold ess. rewrite (doubled_bits c p Hc Hp). fold F.
    change (true :: repeat true (2 * preamble_of c p - 1) ++ F) with (repeat true (S (2 * preamble_of c p - 1)) ++ F).
    replace (S (2 * preamble_of c p - 1)) with P by lia. rewrite map_app, <- !app_assoc. reflexivity. }
  clearbody hs. subst hs.
  assert (Hone : forall k, (k <= P)%nat -> (k <= n)%nat ->
    concat (firstn n (map (fun b => [b]) (repeat true P ++ F) ++ rest ++ concat ess)) =
    repeat true k ++ concat (firstn (n - k) (map (fun b => [b]) (repeat true (P - k) ++ F) ++ rest ++ concat ess))).
  { intros k Hk Hkn. replace (repeat true P) with (repeat true k ++ repeat true (P - k)) by (rewrite <- repeat_app; f_equal; lia).
    rewrite <- app_assoc, (map_app _ (repeat true k)), <- app_assoc, firstn_app, map_length, repeat_length, concat_app.
    rewrite firstn_all2 by (rewrite map_length, repeat_length; exact Hkn). rewrite concat_singles. reflexivity. }
  pose proof (settles_all f Hs) as Hset.
  destruct (Nat.le_gt_cases n P) as [Hn|Hn].
  - rewrite (Hone n Hn ltac:(lia)), Nat.sub_diag in *. cbn [firstn concat] in *. rewrite app_nil_r in *.
    exists (arun f (repeat true n)), 0%nat. rewrite Ef.
    replace (n <? P + length F)%nat with true by (symmetry; apply Nat.ltb_lt; unfold F; cbn [List.app length]; lia).
    rewrite app_nil_r. split; [reflexivity|]. split; [apply (Hset n Hf)|split; [lia|discriminate]].
  - assert (Hf1 : fits f (repeat true P)) by (rewrite (Hone P ltac:(lia) ltac:(lia)) in Hf; apply fits_app in Hf; apply Hf).
    destruct (proj2 (Hset P Hf1) ltac:(lia)) as (k & Hk & Hx & j & Hq).
    rewrite (Hone k ltac:(lia) ltac:(lia)), arun_app. exists (arun f (repeat true k)).
    destruct (Nat.le_gt_cases 20 (j + (P - k))) as [Hj|Hj].
    + exists 0%nat. split; [|split; [exact Hx|split; [lia|discriminate]]]. f_equal.
      destruct (first_run c ps ess (bytes p) (P - k) rest Hc Hall Hps Hp Hrest Hlr (n - k) j _ Hq Hj ltac:(lia)) as [_ G2].
      fold F in G2. rewrite G2, Ef, app_length, repeat_length. cbn [skipn].
      destruct (Nat.ltb_spec (n - k) (P - k + length F)), (Nat.ltb_spec n (P + length F)); try lia; [reflexivity|].
      f_equal. f_equal. lia.
    + exists 1%nat. split; [|split; [exact Hx|split; [lia|intros _; exists p, ps; split; [reflexivity|change (preamble c p) with (preamble_of c p); lia]]]]. f_equal.
      pose proof (skip_run c ps ess (bytes p) (P - k) rest Hc Hall Hps Hp Hrest Hlr (n - k) j _ Hq Hj) as G. cbv zeta in G.
      fold F in G. rewrite G, Ef, app_length, repeat_length.
      destruct (Nat.ltb_spec n (P + length F)); cbn [skipn].
      * replace (n - k - (P - k + length F) - _)%nat with 0%nat by lia. apply finished_0; assumption.
      * f_equal. lia.
Qed.

(** ** The decoder *)

Section Late.
  Context {I : Type} (E : Env I).

  (** Nothing undefined happened, so no byte was one too many *)
  Lemma run_fits : forall os l s f s' es, Rl l s -> Inv (l_heard l) f -> run E os s = Ok (tt, s', es) ->
    ~ In ODisable os -> never_full os l -> fits f (half_bits_in os).
  Proof.
    induction os as [|o os IH]; intros l s f s' es HR HI H Hnd Hnf; [exact Logic.I|].
    cbn [run] in H. apply bind_inv in H. destruct H as (b & s1 & e1 & e2 & H1 & H2 & ->).
    pose proof (step_refines E o l s b s1 e1 HR H1) as HR1.
    assert (Hnf1 : never_full os (listen o l)).
    { intros a c Ha. specialize (Hnf (o :: a) c). rewrite listen_all_cons in Hnf. apply Hnf. rewrite Ha. reflexivity. }
    assert (Hq : (length (l_queue l) < 31)%nat) by exact (Hnf [] (o :: os) eq_refl).
    assert (Ho : o <> ODisable) by (intros ->; apply Hnd; left; reflexivity).
    change (half_bits_in (o :: os)) with (half_bits_in ([o] ++ os)). rewrite half_bits_in_app, fits_app.
    assert (Hf : fits f (half_bits_in [o])).
    { destruct o as [| | |t| |ds| | |i v]; try exact Logic.I. cbn [half_bits_in flat_map].
      destruct (half_bit t) as [b0|] eqn:Et; [|exact Logic.I]. cbn [List.app fits]. split; [|exact Logic.I].
      cbn [step] in H1. apply bind_inv in H1. destruct H1 as ([] & s2 & e3 & e4 & Ha & _ & _).
      destruct HR as (HI0 & Hqu & _). rewrite receive_machine in Ha.
      assert (Hfull : full s = false) by (unfold full; rewrite Hqu; apply Nat.eqb_neq; lia). rewrite Hfull in Ha.
      pose proof (machine_sim (l_heard l) (r_fsm (rxs s)) false b0 t HI0 Et) as S1.
      pose proof (machine_sim (l_heard l) f false b0 t HI Et) as S2. cbv zeta in S1, S2. rewrite andb_false_r in S1, S2.
      rewrite <- (machine_some _ _ t _ Et). intros Hov. rewrite Hov in S2.
      destruct (reading (l_heard l ++ [b0])) as [| |bs].
      - destruct S2 as [[_ S2]|[[S2|S2] _]]; try discriminate. destruct (machine false (r_fsm (rxs s)) t) as [g a]. cbn [snd] in S1.
        destruct S1 as [[-> _]|(_ & _ & _ & S1)]; [discriminate Ha|lia].
      - destruct S2 as [S2 _]. discriminate.
      - destruct S2 as (_ & _ & S2). destruct (valid_packet bs); destruct S2 as [S2 _]; discriminate. }
    split; [exact Hf|]. destruct (listen_machine o l f HI Ho Hq Hf) as (HI1 & _ & _).
    apply (IH _ _ _ _ _ HR1 HI1 H2); [intro; apply Hnd; right; assumption|exact Hnf1].
  Qed.

  Theorem disturbed : forall i before s1 e1 c ps n dos s es, config_ok c -> Forall acceptable ps ->
    run E before (st0 i) = Ok (tt, s1, e1) -> run E dos s1 = Ok (tt, s, es) ->
    filter is_receive dos = map OReceive (firstn n (map fst (flat_map (on_track c) ps))) ->
    ~ In ODisable dos -> let l := listen_all before listener0 in never_full dos l ->
    exists x k, heard dos l = x ++ skipn k (finished c ps n) /\ (length x <= 1)%nat /\ (k <= 1)%nat /\
      (k = 1%nat -> exists p ps', ps = p :: ps' /\ (preamble c p < 20)%nat).
  Proof.
    intros i before s1 e1 c ps n dos s es Hc Hacc Hb Hd Hr Hnd l Hnf.
    assert (Hps : Forall (fun p => packet_ok (bytes p)) ps).
    { eapply Forall_impl; [|exact Hacc]. intros [bs|] Hp; [exact Hp|exact idle_ok]. }
    pose proof (run_refines E before listener0 (st0 i) s1 e1 (Rl0 i) Hb) as HR. fold l in HR.
    pose proof (proj1 HR) as HI.
    pose proof (run_fits dos l s1 _ s es HR HI Hd Hnd Hnf) as Hf.
    rewrite (heard_machine E dos l s1 s es HR Hd Hnd Hnf), (proj1 (mrun_arun _ _)).
    rewrite (half_bits_in_receives _ _ Hr) in *.
    destruct (resync c ps n _ Hc Hps (Inv_sane _ _ HI) Hf) as (x & k & -> & Hx & Hk & Hw).
    exists (filter (fun p => negb (is_logon p)) x), k. rewrite filter_app. split; [f_equal|].
    - apply filter_all. apply Forall_forall. intros p Hp.
      assert (In p (finished c ps n)) as Hq.
      { rewrite <- (firstn_skipn k (finished c ps n)). apply in_or_app. right. exact Hp. }
      apply finished_In, in_map_iff in Hq. destruct Hq as (q & <- & Hq). rewrite Forall_forall in Hps.
      destruct (Hps q Hq) as (_ & _ & _ & ->). reflexivity.
    - split; [|split; [exact Hk|exact Hw]]. clear - Hx. destruct x as [|p [|]]; cbn [length] in Hx; [cbn; lia| |lia]. cbn [filter]. destruct (negb (is_logon p)); cbn; lia.
  Qed.
End Late.

Section Joined.
  Context {I : Type} (E : Env I) (m : I -> Z -> Z) (able : access -> Prop) (time : I -> Z)
    (Hk : keeps_cvs able E m) (HE : short_cv1 E) (HC : clock E time).

  (** Switched on late *)
  Theorem late_obeyed : forall c ops i, 0 <= time i -> config_ok c -> Forall plain_op ops ->
    (forall bs, In (TBytes bs) ops -> packet_ok bs /\ complete bs) ->
    exists h xs tx, tx_run (TInit c :: ops) (tx_init_state 4) = Ok ((None, []) :: xs, tx) /\
    flat_map call_of h = ops /\ flat_map result_of h = xs /\ history_ok c h /\
    forall late dos, (late <= length (intervals xs))%nat ->
      filter is_receive dos = map OReceive (map fst (skipn late (intervals xs))) -> ~ In ODisable dos ->
      never_full dos listener0 -> on_time dos ->
      exists s es, run E (OInit :: dos) (st0 i) = Ok (tt, s, es) /\
        skipn (missed c (None :: started h) late) (finished c (None :: started h) (length (ticks h))) =
          SpecRx.taken dos listener0 ++ r_deque (rxs s) /\
        let x := obey_all (e_east_west E) (SpecRx.taken dos listener0) (new_view (m i)) in
        Forall (allowed able) (snd x) ->
        seen_in es = snd x /\ (forall a, m (Rx.app s) a = v_cvs (fst x) a) /\
        in_service s = v_service (fst x) /\ page s = v_page (fst x).
  Proof.
    intros c ops i Hi Hc Hops Hpk. destruct (tx_history c ops Hc Hops) as (xs & tx & h & Htx & Hcall & Hres & Hh).
    exists h, xs, tx. split; [exact Htx|]. split; [exact Hcall|]. split; [exact Hres|]. split; [exact Hh|].
    intros late dos Hl Hdos Hnd Hnf Hon. rewrite <- Hres, intervals_ticks in Hl, Hdos.
    assert (Hq : forall bs, In bs (queued h) -> packet_ok bs /\ complete bs).
    { intros bs Hb. apply Hpk. rewrite <- Hcall. apply queued_calls. exact Hb. }
    assert (Hq1 : Forall packet_ok (queued h)) by (apply Forall_forall; intros bs Hb; apply (Hq bs Hb)).
    destruct (history_halves c h Hc Hh Hq1) as [Hfn Hok].
    assert (Ha : audible (half_bits_in dos) (skipn (missed c (None :: started h) late) (finished c (None :: started h) (length (ticks h))))).
    { rewrite (half_bits_in_receives _ _ Hdos), <- skipn_map, Hfn.
      apply (late_run c _ Hc Hok late (length (ticks h)) (reset_fsm (Mk_fsm Preamble 0 0 0 false [] false))); [repeat split|exact Hl]. }
    destruct (audible_run E time HE HC i dos _ Hi Ha) as (s & es & Hrun & Hlo & _ & Hfin & Hqu); auto.
    { assert (Hid : complete [0xFF; 0; 0xFF]) by (exact (generated_complete _ gen_idle)).
      apply Forall_forall. intros p Hp.
      assert (Hp' : In p (finished c (None :: started h) (length (ticks h)))).
      { rewrite <- (firstn_skipn (missed c (None :: started h) late)). apply in_or_app. right. exact Hp. }
      clear Hp. rename Hp' into Hp. apply finished_In in Hp. cbn [map] in Hp. destruct Hp as [<-|Hp]; [split; [exact Hid|reflexivity]|].
      apply in_map_iff in Hp. destruct Hp as (q & <- & Hp). destruct q as [bs|]; [|split; [exact Hid|reflexivity]].
      cbn [bytes]. pose proof (started_queued c h bs Hh Hp) as Hb. destruct (Hq bs Hb) as [H1 H2]. split; [exact H2|]. exact (proj2 (proj2 (proj2 H1))). }
    exists s, es. split; [exact Hrun|]. split; [exact Hfin|]. exact (layout E m able Hk dos i s es Hrun Hlo).
  Qed.
End Joined.
