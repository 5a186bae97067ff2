(** Decoders at an RMT channel: nothing undefined happens and the packets are obeyed *)
From Verif Require Import Prelude Address ZBits SpecCodec SpecTx TxProofs Tx RxState Rx CodecProofs CodecProofs2 RxLogic SpecRx
  RxBitProofs RxBitProofs2 RxBitProofs3 RxBitProofs4 RxBitProofs5 SpecExec SpecConf SpecCv SpecLogon SpecBidi SpecSafe SafeProofs2
  SpecLayout LayoutProofs4 LayoutProofs5 LayoutProofs6 SpecLayout2 LayoutProofs7 LayoutProofs8
  SpecStation StationProofs AudibleProofs Rmt SpecRmt RmtProofs2 SpecRmtTrack RmtTrackProofs.

(** A packet is complete with one more half bit *)
Definition ready (f : fsm) (bs : list Z) : Prop :=
  fits f [true] /\ arun f [true] = [bs] /\ quiet 0 (fst (mrun f [true])).

Lemma opening_run : forall c first bs f skip, within_ranges c -> packet_ok bs -> quiet 0 f ->
  (skip <= 1)%nat -> (skip = 0%nat \/ rc_zimo0 c = false \/ cut_ones c first = 8%nat) ->
  exists init, skipn skip (opening c first bs) = init ++ [true] /\
    fits f init /\ arun f init = [] /\ ready (fst (mrun f init)) bs.
Proof.
  intros c first bs f skip Hc Hbs Hf Hs Hor. unfold opening.
  assert (Hn : (17 <= Z.to_nat (rc_num_preamble c))%nat) by (unfold within_ranges in Hc; lia).
  set (n := Z.to_nat (rc_num_preamble c)) in *.
  assert (K : forall k f, quiet 0 f -> (20 <= k)%nat -> exists init,
     repeat true k ++ [false; false] ++ doubled (frame_bits bs) = init ++ [true] /\
     fits f init /\ arun f init = [] /\ ready (fst (mrun f init)) bs).
  { clear f Hf. intros k f Hf Hk. destruct (frame_run bs k 0 f Hbs Hf ltac:(lia) ltac:(lia)) as (F1 & F2 & F3 & init & F4 & F5).
    exists init. rewrite F4 in *. split; [reflexivity|]. rewrite fits_app in F1. rewrite arun_app, F5 in F3. rewrite fst_mrun_app in F2.
    split; [apply F1|]. split; [exact F5|]. split; [apply F1|]. split; [exact F3|exact F2]. }
  destruct (rc_zimo0 c) eqn:Ez.
  - assert (Hk : exists k, (k < 18)%nat /\
        skipn skip (repeat true (cut_ones c first) ++ [false; false] ++ repeat true (2 * n) ++ [false; false] ++ doubled (frame_bits bs))
        = (repeat true k ++ [false; false]) ++ repeat true (2 * n) ++ [false; false] ++ doubled (frame_bits bs)).
    { exists (cut_ones c first - skip)%nat. split; [unfold cut_ones; destruct (_ || _); lia|].
      destruct skip as [|[|]]; [rewrite Nat.sub_0_r, <- app_assoc; reflexivity| |lia].
      destruct Hor as [?|[?| ->]]; [discriminate|discriminate|]. rewrite <- app_assoc. reflexivity. }
    destruct Hk as (k & Hk & ->).
    assert (Hcalm : calm 0 (repeat true k ++ [false; false]) /\ trailing 0 (repeat true k ++ [false; false]) = 0%nat).
    { clear - Hk. rewrite trailing_app. split; [|reflexivity].
      assert (G : forall k j, (j + k < 20)%nat -> calm j (repeat true k ++ [false; false])).
      { clear. induction k as [|k IH]; intros j H; cbn [repeat List.app calm]; [repeat split; lia|]. split; [lia|]. apply IH. lia. }
      apply G. lia. }
    destruct Hcalm as [C1 C2]. destruct (calm_run _ 0 f Hf C1) as (A1 & A2 & A3). rewrite C2 in A3.
    destruct (K (2 * n)%nat _ A3 ltac:(lia)) as (init & I1 & I2 & I3 & I4).
    set (z := repeat true k ++ [false; false]) in *. clearbody z. exists (z ++ init). rewrite I1, fits_app, arun_app, fst_mrun_app, A2, I3.
    split; [rewrite app_assoc; reflexivity|]. auto.
  - cbn [List.app].
    assert (Hk : skipn skip (repeat true (cut_ones c first) ++ repeat true (2 * n) ++ false :: false :: doubled (frame_bits bs))
        = repeat true (cut_ones c first + 2 * n - skip) ++ [false; false] ++ doubled (frame_bits bs)).
    { rewrite app_assoc, <- repeat_app. destruct skip as [|[|]]; [rewrite Nat.sub_0_r; reflexivity| |lia].
      destruct (cut_ones c first + 2 * n)%nat as [|x] eqn:Ex; [lia|].
      rewrite <- Ex at 1. rewrite Ex. cbn [repeat List.app skipn]. rewrite Nat.sub_succ, Nat.sub_0_r. reflexivity. }
    rewrite Hk. apply K; [exact Hf|lia].
Qed.

Section Channel.
  Variable c : rmt_config.
  Hypothesis Hc : within_ranges c.

  Definition awaits (f : fsm) (pend : list (list Z)) : Prop :=
    match pend with [] => quiet 0 f | bs :: _ => pend = [bs] /\ ready f bs end.

  Lemma channel_run : forall js first m f pend ts m',
    SpecRmt.between first m -> all_supplied c first js -> Forall (fun j => packet_ok (j_bytes j)) js ->
    Forall (closes c) js -> awaits f pend ->
    (pend <> [] -> first = false /\ (rc_bidibit c <> 0 \/ rc_zimo0 c = false)) ->
    channel c m js = Some (ts, m') ->
    fits f (halves_of ts) /\ pend ++ map j_bytes js = arun f (halves_of ts) ++ left_over c js pend.
  Proof.
    induction js as [|j js IH]; intros first m f pend ts m' Hm Hsup Hpk Hcl Hw Hp Hch.
    - cbn [channel] in Hch. assert (ts = []) by congruence. subst ts.
      split; [exact Logic.I|]. cbn. rewrite app_nil_r. reflexivity.
    - cbn [channel all_supplied] in *. destruct Hsup as [[Hun Hlen] Hsup].
      inversion Hpk as [|? ? Hpj Hpk']; subst. inversion Hcl as [|? ? Hcj Hcl']; subst.
      assert (Hne : j_bytes j <> []).
      { destruct Hpj as (_ & Hl & _). intro H. rewrite H in Hl. cbn in Hl. lia. }
      destruct (session_unsplit c first (j_bytes j) m (j_memory j) Hc Hne Hm Hun) as (m1 & Hs & Hm1).
      rewrite Hs in Hch. rewrite (proj2 (Nat.leb_le _ _) Hlen) in Hch.
      rewrite firstn_all2 in Hch by lia. specialize (Hm1 Hlen).
      destruct (channel c m1 js) as [[ts1 m2]|] eqn:Ech; [|discriminate].
      assert (Hts : lengthen (j_gap j) (durations (stream c first (j_bytes j))) ++ ts1 = ts) by congruence.
      subst ts. clear Hch.
      destruct (stream_split c Hc first (j_bytes j)) as (t0 & Ht0 & Hop). specialize (Hop Hpj).
      rewrite Ht0, lengthen_last, !halves_of_app.
      (* up to the last half bit *)
      assert (Hgo : fits f (halves_of t0) /\ arun f (halves_of t0) = pend /\ ready (fst (mrun f (halves_of t0))) (j_bytes j)).
      { destruct pend as [|p pend'].
        - destruct (opening_run c first (j_bytes j) f 0 Hc Hpj Hw) as (init & Ha & Hb & Hd & He); [lia|auto|].
          cbn [skipn] in Ha. rewrite Hop in Ha. apply app_inj_tail in Ha. destruct Ha as [-> _]. auto.
        - destruct Hw as (Hpe & W1 & W2 & W3). destruct (Hp ltac:(discriminate)) as (Hfi & Hor).
          destruct (opening_run c first (j_bytes j) _ 1 Hc Hpj W3) as (init & Ha & Hb & Hd & He); [lia| |].
          { right. unfold cut_ones. rewrite Hfi. cbn [orb]. destruct Hor as [Hor|Hor]; [right|left; exact Hor].
            apply Z.eqb_neq in Hor. rewrite Hor. reflexivity. }
          assert (Hfirst : exists r, halves_of t0 = true :: r /\ r = init).
          { assert (Hq : exists r, opening c first (j_bytes j) = true :: r).
            { unfold opening, cut_ones. rewrite Hfi. cbn [orb].
              destruct Hor as [Hor|Hor].
              - apply Z.eqb_neq in Hor. rewrite Hor. eexists. reflexivity.
              - rewrite Hor. destruct (rc_bidibit c =? 0); [|eexists; reflexivity].
                assert (Hn : (17 <= Z.to_nat (rc_num_preamble c))%nat) by (unfold within_ranges in Hc; lia).
                destruct (Z.to_nat (rc_num_preamble c)); [lia|]. eexists. reflexivity. }
            destruct Hq as (r & Hq). rewrite Hq in Ha. cbn [skipn] in Ha. rewrite Hop in Hq.
            destruct (halves_of t0) as [|x u].
            { cbn in Hq. injection Hq as Hr. subst r. destruct init; discriminate. }
            cbn [List.app] in Hq. injection Hq as Hx Hr. subst x. exists u. split; [reflexivity|].
            rewrite <- Hr in Ha. apply app_inj_tail in Ha. apply Ha. }
          destruct Hfirst as (r & Hr & ->). rewrite Hr. change (true :: init) with ([true] ++ init).
          rewrite fits_app, arun_app, fst_mrun_app, W2, Hd, app_nil_r, Hpe. auto. }
      destruct Hgo as (G1 & G2 & G3). rewrite <- app_assoc, fits_app, arun_app, G2.
      rewrite fits_app, arun_app, halves_of_one.
      set (f1 := fst (mrun f (halves_of t0))) in *. pose proof G3 as (R1 & R2 & R3).
      destruct (rev js) as [|jl rj] eqn:Erev.
      + (* the last job *)
        assert (js = []) by (apply (f_equal (@rev _)) in Erev; rewrite rev_involutive in Erev; exact Erev).
        subst js. cbn [channel] in Ech. assert (ts1 = []) by congruence. subst ts1.
        unfold left_over. cbn [rev List.app]. unfold closes in Hcj. unfold closing in *.
        cbn [halves_of flat_map arun fits map].
        destruct Hcj as [Hcj|[Hcj _]]; rewrite Hcj.
        * rewrite R2. split; [auto|]. rewrite !app_nil_r. reflexivity.
        * cbn [arun fits]. split; [auto|]. rewrite !app_nil_r. reflexivity.
      + assert (Hlo : forall p, left_over c (j :: js) p = left_over c js [] /\ left_over c js [j_bytes j] = left_over c js []).
        { intros p. unfold left_over. cbn [rev]. rewrite Erev. split; reflexivity. }
        destruct (Hlo pend) as [Hlo1 Hlo2]. rewrite Hlo1.
        destruct Hcj as [Hcj|[Hcj Hor]]; unfold closing in Hcj; rewrite Hcj.
        * destruct (IH false m1 (fst (mrun f1 [true])) [] ts1 m2 Hm1 Hsup Hpk' Hcl' R3 ltac:(congruence) Ech) as [I1 I2].
          rewrite R2. split; [auto|]. cbn [map List.app] in *. rewrite <- !app_assoc. f_equal. cbn [List.app]. f_equal. exact I2.
        * destruct (IH false m1 f1 [j_bytes j] ts1 m2 Hm1 Hsup Hpk' Hcl') as [I1 I2]; auto.
          { split; [reflexivity|exact G3]. }
          cbn [mrun arun fits fst List.app]. split; [auto|]. rewrite Hlo2 in I2. rewrite <- app_assoc. f_equal. exact I2.
  Qed.

  Lemma channel_audible : forall js ts m', all_supplied c true js -> Forall (fun j => packet_ok (j_bytes j)) js ->
    Forall (closes c) js -> channel c rmt_reset js = Some (ts, m') -> audible (halves_of ts) (complete_packets c js).
  Proof.
    intros js ts m' Hsup Hpk Hcl Hch.
    destruct (channel_run js true rmt_reset (reset_fsm (Mk_fsm Preamble 0 0 0 false [] false)) [] ts m') as [F A]; auto;
      [reflexivity|repeat split|congruence|].
    split; [exact F|]. rewrite (complete_left_over c js) in A. cbn [List.app] in A. apply app_inv_tail in A. symmetry. exact A.
  Qed.
End Channel.

Section Obeyed.
  Context {I : Type} (E : Env I) (m : I -> Z -> Z) (able : access -> Prop) (time : I -> Z)
    (Hk : keeps_cvs able E m) (HE : short_cv1 E) (HC : clock E time).

  Theorem rmt_obeyed : forall c js i, 0 <= time i -> within_ranges c ->
    Forall (fun j => packet_ok (j_bytes j) /\ complete (j_bytes j)) js -> Forall (closes c) js -> all_supplied c true js ->
    exists ts m', channel c rmt_reset js = Some (ts, m') /\
    forall dos, filter is_receive dos = map OReceive ts -> ~ In ODisable dos -> never_full dos listener0 -> on_time dos ->
      exists s es, run E (OInit :: dos) (st0 i) = Ok (tt, s, es) /\
        complete_packets c js = SpecRx.taken dos listener0 ++ r_deque (rxs s) /\
        let x := obey_all (e_east_west E) (SpecRx.taken dos listener0) (new_view (m i)) in
        Forall (allowed able) (snd x) ->
        seen_in es = snd x /\ (forall a, m (Rx.app s) a = v_cvs (fst x) a) /\
        in_service s = v_service (fst x) /\ page s = v_page (fst x).
  Proof.
    intros c js i Hi Hc Hjs Hcl Hsup.
    assert (Hpk : Forall (fun j => packet_ok (j_bytes j)) js) by (eapply Forall_impl; [|exact Hjs]; intros a [H _]; exact H).
    destruct (channel_total c js true rmt_reset Hc Hpk Hsup eq_refl) as (ts & m' & Hch). exists ts, m'. split; [exact Hch|].
    intros dos Hdos Hnd Hnf Hon.
    assert (Ha : audible (half_bits_in dos) (complete_packets c js)).
    { rewrite (half_bits_in_receives _ _ Hdos). exact (channel_audible c Hc js ts m' Hsup Hpk Hcl Hch). }
    destruct (audible_run E time HE HC i dos _ Hi Ha) as (s & es & Hrun & Hlo & _ & Hfin & Hqu); auto.
    { apply Forall_forall. intros p Hp.
      assert (Hp' : In p (map j_bytes js)) by (rewrite (complete_left_over c js); apply in_or_app; left; exact Hp).
      apply in_map_iff in Hp'. destruct Hp' as (j & <- & Hj). rewrite Forall_forall in Hjs. destruct (Hjs j Hj) as [(_ & _ & _ & H1) H2]. auto. }
    exists s, es. split; [exact Hrun|]. split; [exact Hfin|]. exact (layout E m able Hk dos i s es Hrun Hlo).
  Qed.
End Obeyed.
