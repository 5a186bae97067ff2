(** The decoder connected to an RMT channel *)
From Verif Require Import Prelude Address ZBits SpecCodec RxState Rx CodecProofs RxLogic SpecRx
  RxBitProofs RxBitProofs2 RxBitProofs3 RxBitProofs4 RxBitProofs5 Rmt SpecRmt RmtProofs2 SpecRmtTrack.

Definition idle (f : fsm) : Prop := RxBitProofs5.between f.

(** Any number of one half bits from 20 on is a preamble *)
Lemma mrun_frame : forall m bs f, packet_ok bs -> (20 <= m)%nat -> idle f ->
  exists init f1 f2, repeat true m ++ [false; false] ++ doubled (frame_bits bs) = init ++ [true] /\
    mrun f init = (f1, []) /\ mstep f1 true = (f2, [bs]) /\ idle f2.
Proof.
  intros n bs f (Hby & Hlen & Hx & Hlg) Hn (H1 & H2 & H3 & H4).
  destruct bs as [|b bs]; [cbn [length] in Hlen; lia|].
  inversion Hby as [|? ? Hb1 Hb2]; subst.
  unfold frame_bits. cbn [flat_map List.app tl].
  rewrite !doubled_app. change (doubled [true]) with ([true] ++ [true]).
  destruct f as [ph bc by_ ck hb pk pe]. cbn in H1, H2, H3, H4. subst ph bc by_ ck.
  exists (repeat true n ++ [false; false] ++ doubled (msb_first b)
          ++ doubled (flat_map (fun b => false :: msb_first b) bs) ++ [true]).
  exists (Mk_fsm Endbit 0 0 0 true (b :: bs) false), (Mk_fsm Preamble 0 0 0 false (b :: bs) true).
  split; [|split; [|split]].
  - rewrite <- !app_assoc. cbn [List.app]. rewrite <- ?app_assoc. reflexivity.
  - rewrite mrun_app.
    rewrite (silent_mrun _ _ _ (silent_ones n 0 (Mk_fsm Preamble 0 0 0 hb pk pe) eq_refl eq_refl ltac:(lia))).
    unfold upd_f_bit_count, upd_f_packet_end. cbn [f_state f_byte f_checksum f_is_halfbit f_packet f_packet_end f_bit_count].
    rewrite mrun_app. 
    assert (Hst : mrun (Mk_fsm Preamble (0 + n) 0 0 hb pk false) [false; false] = (Mk_fsm Data 0 0 0 false [] false, [])).
    { cbn [mrun]. unfold mstep, machine_hb, machine_bit. cbn -[Nat.ltb Nat.mul].
      replace (n <? 20)%nat with false by (symmetry; apply Nat.ltb_ge; lia). reflexivity. }
    rewrite Hst. rewrite mrun_app.
    rewrite (silent_mrun _ _ _ (silent_byte b 0 [] Hb1 ltac:(unfold byte; lia) ltac:(cbn [length]; lia))).
    rewrite mrun_app.
    rewrite (silent_mrun _ _ _ (silent_bytes bs (Z.lxor 0 b) ([] ++ [b]) Hb2
      ltac:(rewrite Z.lxor_0_l; exact Hb1) ltac:(cbn [length List.app] in *; lia))).
    rewrite Z.lxor_0_l. change (Z.lxor b (xor_all bs)) with (xor_all (b :: bs)). rewrite Hx.
    change (([] ++ [b]) ++ bs) with (b :: bs). reflexivity.
  - unfold mstep, machine_hb, machine_bit. cbn -[Nat.leb length is_logon].
    replace (3 <=? length (b :: bs))%nat with true by (symmetry; apply Nat.leb_le; lia).
    cbn -[Nat.leb length is_logon]. rewrite Hlg. reflexivity.
  - repeat split.
Qed.

(** Ones too few to be a preamble, then the ZIMO 0 *)
Lemma mrun_false_start : forall k f, (k < 20)%nat -> idle f ->
  exists f', mrun f (repeat true k ++ [false; false]) = (f', []) /\ idle f'.
Proof.
  intros k f Hk (H1 & H2 & H3 & H4).
  destruct f as [ph bc by_ ck hb pk pe]. cbn in H1, H2, H3, H4. subst ph bc by_ ck.
  destruct k as [|k].
  - destruct (mrun_zeros 2 (Mk_fsm Preamble 0 0 0 hb pk pe)) as (f' & H & Hf); [repeat split|].
    exists f'. auto.
  - rewrite mrun_app.
    rewrite (silent_mrun _ _ _ (silent_ones (S k) 0 (Mk_fsm Preamble 0 0 0 hb pk pe) eq_refl eq_refl ltac:(lia))).
    unfold upd_f_bit_count, upd_f_packet_end. cbn [f_state f_byte f_checksum f_is_halfbit f_packet f_packet_end f_bit_count].
    cbn [mrun]. unfold mstep at 1, machine_hb, machine_bit. cbn -[Nat.ltb Nat.mul mstep].
    replace (S k <? 20)%nat with true by (symmetry; apply Nat.ltb_lt; lia).
    cbn. eexists. split; [reflexivity|]. repeat split.
Qed.

(** Half bits in front of the start bit: cutout, ZIMO 0, preamble, without the first
    [skip] *)
Definition cut_ones (c : rmt_config) (first : bool) : nat :=
  if first || (rc_bidibit c =? 0) then 0%nat else 8%nat.
Definition opening (c : rmt_config) (first : bool) (bs : list Z) : list bool :=
  repeat true (cut_ones c first) ++ (if rc_zimo0 c then [false; false] else []) ++
  repeat true (2 * Z.to_nat (rc_num_preamble c)) ++ [false; false] ++ doubled (frame_bits bs).

Lemma mrun_opening : forall c first bs f skip, within_ranges c -> packet_ok bs -> idle f ->
  (skip <= 1)%nat -> (skip = 0%nat \/ rc_zimo0 c = false \/ cut_ones c first = 8%nat) ->
  exists init f1 f2, skipn skip (opening c first bs) = init ++ [true] /\
    mrun f init = (f1, []) /\ mstep f1 true = (f2, [bs]) /\ idle f2.
Proof.
  intros c first bs f skip Hc Hbs Hf Hs Hor. unfold opening.
  assert (Hn : (17 <= Z.to_nat (rc_num_preamble c))%nat) by (unfold within_ranges in Hc; lia).
  set (n := Z.to_nat (rc_num_preamble c)) in *.
  destruct (rc_zimo0 c) eqn:Ez.
  - assert (Hk : exists k, (k < 20)%nat /\
        skipn skip (repeat true (cut_ones c first) ++ [false; false] ++ repeat true (2 * n) ++ [false; false] ++ doubled (frame_bits bs))
        = (repeat true k ++ [false; false]) ++ repeat true (2 * n) ++ [false; false] ++ doubled (frame_bits bs)).
    { exists (cut_ones c first - skip)%nat. split; [unfold cut_ones; destruct (_ || _); lia|].
      destruct skip as [|[|]]; [rewrite Nat.sub_0_r, <- app_assoc; reflexivity| |lia].
      destruct Hor as [?|[?| ->]]; [discriminate|discriminate|]. rewrite <- app_assoc. reflexivity. }
    destruct Hk as (k & Hk & ->).
    destruct (mrun_false_start k f Hk Hf) as (f0 & H0 & Hf0).
    destruct (mrun_frame (2 * n) bs f0 Hbs ltac:(lia) Hf0) as (init & f1 & f2 & Ha & Hb & Hd & He).
    exists ((repeat true k ++ [false; false]) ++ init), f1, f2.
    split; [rewrite Ha, app_assoc; reflexivity|]. split; [|auto].
    rewrite mrun_app, H0, Hb. reflexivity.
  - cbn [List.app].
    assert (Hk : skipn skip (repeat true (cut_ones c first) ++ repeat true (2 * n) ++ false :: false :: doubled (frame_bits bs))
        = repeat true (cut_ones c first + 2 * n - skip) ++ [false; false] ++ doubled (frame_bits bs)).
    { rewrite app_assoc, <- repeat_app. destruct skip as [|[|]]; [rewrite Nat.sub_0_r; reflexivity| |lia].
      destruct (cut_ones c first + 2 * n)%nat as [|x] eqn:Ex; [lia|].
      rewrite <- Ex at 1. rewrite Ex. cbn [repeat List.app skipn]. rewrite Nat.sub_succ, Nat.sub_0_r. reflexivity. }
    rewrite Hk. apply mrun_frame; auto. lia.
Qed.

Lemma halves_of_repeat : forall t b n, half_bit t = Some b -> halves_of (repeat t n) = repeat b n.
Proof. intros t b n H. induction n; [reflexivity|]. cbn [repeat halves_of flat_map]. rewrite H. cbn [List.app]. f_equal. exact IHn. Qed.

Lemma halves_of_one : forall t, halves_of [t] = match half_bit t with Some b => [b] | None => [] end.
Proof. intros t. unfold halves_of. cbn [flat_map]. apply app_nil_r. Qed.

Lemma durations_app : forall a b, durations (a ++ b) = durations a ++ durations b.
Proof. intros. unfold durations. apply flat_map_app. Qed.
Lemma durations_repeat : forall d l d' l' n, d = d' ->
  durations (repeat (Sym d l d' l') n) = repeat d (2 * n).
Proof.
  intros d l d' l' n ->. induction n; [reflexivity|].
  replace (2 * S n)%nat with (S (S (2 * n))) by lia. cbn [repeat durations flat_map List.app s_dur0 s_dur1].
  do 2 f_equal. exact IHn.
Qed.

Section Heard.
  Variable c : rmt_config.
  Hypothesis Hc : within_ranges c.

  Lemma one_heard : half_bit (rc_bit1 c) = Some true.
  Proof. apply half_one. unfold within_ranges in Hc. lia. Qed.
  Lemma zero_heard : half_bit (rc_bit0 c) = Some false.
  Proof. apply half_zero. unfold within_ranges in Hc. lia. Qed.

  Lemma bits_heard : forall bits, halves_of (durations (map (bit_symbol c) bits)) = doubled bits.
  Proof.
    induction bits as [|b bits IH]; [reflexivity|].
    cbn [map]. change (bit_symbol c b :: map (bit_symbol c) bits) with ([bit_symbol c b] ++ map (bit_symbol c) bits).
    rewrite durations_app, halves_of_app, IH. change (doubled (b :: bits)) with ([b; b] ++ doubled bits). f_equal.
    destruct b; cbn; rewrite ?one_heard, ?zero_heard; reflexivity.
  Qed.

  Lemma lead_heard : forall first, halves_of (durations (lead c first)) =
    repeat true (cut_ones c first) ++ (if rc_zimo0 c then [false; false] else []) ++
    repeat true (2 * Z.to_nat (rc_num_preamble c)).
  Proof.
    intros first. unfold lead, cut_ones. rewrite !durations_app, !halves_of_app. f_equal; [|f_equal].
    - destruct (first || (rc_bidibit c =? 0)) eqn:E; [reflexivity|].
      unfold symbol. rewrite durations_repeat by reflexivity. change (2 * 4)%nat with 8%nat.
      apply halves_of_repeat. apply half_one. apply orb_false_iff in E. destruct E as [_ E].
      apply Z.eqb_neq in E. unfold within_ranges in Hc. lia.
    - destruct (rc_zimo0 c); [|reflexivity]. cbn. rewrite zero_heard. reflexivity.
    - unfold bit_symbol, symbol. rewrite durations_repeat by reflexivity. apply halves_of_repeat, one_heard.
  Qed.

  (** All but the last half bit of a packet *)
  Lemma stream_split : forall first bs, exists ts,
    durations (stream c first bs) = ts ++ [if rc_endbit c =? 0 then rc_bit1 c else rc_endbit c] /\
    (packet_ok bs -> opening c first bs = halves_of ts ++ [true]).
  Proof.
    intros first bs.
    exists (durations (lead c first) ++
            durations (flat_map (fun b => map (bit_symbol c) (false :: msb_first b)) bs) ++ [rc_bit1 c]).
    split.
    - unfold stream. rewrite !durations_app. rewrite <- !app_assoc. reflexivity.
    - intros (Hby & Hlen & _). rewrite !halves_of_app, lead_heard. unfold opening.
      rewrite <- !app_assoc. do 3 f_equal.
      assert (Hbits : halves_of (durations (flat_map (fun b => map (bit_symbol c) (false :: msb_first b)) bs))
                      = doubled (flat_map (fun b => false :: msb_first b) bs)).
      { rewrite <- bits_heard. do 2 f_equal. clear. induction bs as [|b bs IH]; [reflexivity|].
        cbn [flat_map]. rewrite map_app, <- IH. reflexivity. }
      rewrite Hbits. unfold frame_bits. cbn [halves_of flat_map]. rewrite one_heard. cbn [List.app].
      destruct bs as [|b bs]; [cbn in Hlen; lia|]. cbn [flat_map List.app tl].
      rewrite !doubled_app. cbn [doubled flat_map List.app].
      change (doubled (false :: msb_first b ++ flat_map (fun b => false :: msb_first b) bs))
        with ([false; false] ++ doubled (msb_first b ++ flat_map (fun b => false :: msb_first b) bs)).
      rewrite !doubled_app. cbn [List.app]. rewrite <- !app_assoc. reflexivity.
  Qed.

  Lemma lengthen_last : forall ts x g, lengthen g (ts ++ [x]) = ts ++ [x + g].
  Proof. intros ts x g. unfold lengthen. rewrite removelast_last, last_last. reflexivity. Qed.

  (** A packet still waiting for its last half bit *)
  Definition waits (f : fsm) (pend : list (list Z)) : Prop :=
    match pend with
    | [] => idle f
    | bs :: _ => pend = [bs] /\ exists f2, mstep f true = (f2, [bs]) /\ idle f2
    end.

  Definition left_over (js : list job) (pend : list (list Z)) : list (list Z) :=
    match rev js with
    | j :: _ => match closing c j with Some true => [] | _ => [j_bytes j] end
    | [] => pend
    end.

  Lemma mrun_channel : forall js first m f pend ts m',
    SpecRmt.between first m -> all_supplied c first js -> Forall (fun j => packet_ok (j_bytes j)) js ->
    Forall (closes c) js -> waits f pend ->
    (pend <> [] -> first = false /\ (rc_bidibit c <> 0 \/ rc_zimo0 c = false)) ->
    channel c m js = Some (ts, m') ->
    exists f' out, mrun f (halves_of ts) = (f', out) /\ waits f' (left_over js pend) /\
      pend ++ map j_bytes js = out ++ left_over js pend.
  Proof.
    induction js as [|j js IH]; intros first m f pend ts m' Hm Hsup Hpk Hcl Hw Hp Hch.
    - cbn [channel] in Hch. assert (ts = []) by congruence. subst ts.
      exists f, []. split; [reflexivity|]. split; [exact Hw|]. cbn. rewrite app_nil_r. reflexivity.
    - cbn [channel all_supplied] in *. destruct Hsup as [[Hun Hlen] Hsup].
      inversion Hpk as [|? ? Hpj Hpk']; subst. inversion Hcl as [|? ? Hcj Hcl']; subst.
      assert (Hne : j_bytes j <> []).
      { destruct Hpj as (_ & Hl & _). intro H. rewrite H in Hl. cbn in Hl. lia. }
      destruct (session_unsplit c first (j_bytes j) m (j_memory j) Hc Hne Hm Hun) as (m1 & Hs & Hm1).
      rewrite Hs in Hch. rewrite (proj2 (Nat.leb_le _ _) Hlen) in Hch.
      rewrite firstn_all2 in Hch by lia. specialize (Hm1 Hlen).
      destruct (channel c m1 js) as [[ts1 m2]|] eqn:Ech; [|discriminate].
      assert (Hts : lengthen (j_gap j) (durations (stream c first (j_bytes j))) ++ ts1 = ts) by congruence.
      subst ts. clear Hch.
      destruct (stream_split first (j_bytes j)) as (t0 & Ht0 & Hop). specialize (Hop Hpj).
      rewrite Ht0, lengthen_last, !halves_of_app.
      (* up to the last half bit *)
      assert (Hgo : exists f1 f2 out, mrun f (halves_of t0) = (f1, out) /\ out = pend /\
                mstep f1 true = (f2, [j_bytes j]) /\ idle f2).
      { destruct pend as [|p pend'].
        - destruct (mrun_opening c first (j_bytes j) f 0 Hc Hpj Hw) as (init & f1 & f2 & Ha & Hb & Hd & He); [lia|auto|].
          cbn [skipn] in Ha. rewrite Hop in Ha. apply app_inj_tail in Ha. destruct Ha as [-> _].
          exists f1, f2, []. auto.
        - destruct Hw as (Hpe & fa & Hfa & Hida). destruct (Hp ltac:(discriminate)) as (Hfi & Hor).
          destruct (mrun_opening c first (j_bytes j) fa 1 Hc Hpj Hida) as (init & f1 & f2 & Ha & Hb & Hd & He); [lia| |].
          { right. unfold cut_ones. rewrite Hfi. cbn [orb]. destruct Hor as [Hor|Hor]; [right|left; exact Hor].
            apply Z.eqb_neq in Hor. rewrite Hor. reflexivity. }
          exists f1, f2, [p]. rewrite Hpe. split; [|auto].
          assert (Hfirst : exists r, halves_of t0 = true :: r /\ r = init).
          { assert (Hq : exists r, opening c first (j_bytes j) = true :: r).
            { unfold opening, cut_ones. rewrite Hfi. cbn [orb].
              destruct Hor as [Hor|Hor].
              - apply Z.eqb_neq in Hor. rewrite Hor. eexists. reflexivity.
              - rewrite Hor. destruct (rc_bidibit c =? 0); [|eexists; reflexivity].
                assert (Hn : (17 <= Z.to_nat (rc_num_preamble c))%nat) by (unfold within_ranges in Hc; lia).
                destruct (Z.to_nat (rc_num_preamble c)); [lia|]. eexists. reflexivity. }
            destruct Hq as (r & Hq). rewrite Hq in Ha. cbn [skipn] in Ha. rewrite Hop in Hq.
            destruct (halves_of t0) as [|x u].
            { cbn in Hq. injection Hq as Hr. subst r. destruct init; discriminate. }
            cbn [List.app] in Hq. injection Hq as Hx Hr. subst x. exists u. split; [reflexivity|].
            rewrite <- Hr in Ha. apply app_inj_tail in Ha. apply Ha. }
          destruct Hfirst as (r & Hr & ->). rewrite Hr. cbn [mrun]. rewrite Hfa, Hb. reflexivity. }
      destruct Hgo as (f1 & f2 & out & Hmr & -> & Hst & Hid).
      destruct (rev js) as [|jl rj] eqn:Erev.
      + (* the last job *)
        assert (js = []) by (apply (f_equal (@rev _)) in Erev; rewrite rev_involutive in Erev; exact Erev).
        subst js. cbn [channel] in Ech. assert (ts1 = []) by congruence. subst ts1.
        unfold left_over. cbn [rev List.app]. unfold closes in Hcj.
        unfold closing in *. rewrite app_nil_r. cbn [halves_of flat_map].
        destruct Hcj as [Hcj|[Hcj _]]; rewrite Hcj; cbn [List.app]; rewrite mrun_app, Hmr; cbn [mrun].
        * rewrite Hst. exists f2, (pend ++ [j_bytes j] ++ []). split; [reflexivity|]. split; [exact Hid|].
          rewrite app_nil_r. reflexivity.
        * exists f1, (pend ++ []). split; [reflexivity|]. split; [split; [reflexivity|eauto]|].
          rewrite app_nil_r. reflexivity.
      + assert (Hlo : forall p, left_over (j :: js) p = left_over js [] /\ left_over js [j_bytes j] = left_over js []).
        { intros p. unfold left_over. cbn [rev]. rewrite Erev. split; reflexivity. }
        destruct (Hlo pend) as [Hlo1 Hlo2]. rewrite Hlo1.
        rewrite halves_of_one.
        destruct Hcj as [Hcj|[Hcj Hor]]; unfold closing in Hcj; rewrite Hcj.
        * destruct (IH false m1 f2 [] ts1 m2 Hm1 Hsup Hpk' Hcl' Hid ltac:(congruence) Ech)
            as (f' & out & Ho & Hw' & He).
          exists f', (pend ++ [j_bytes j] ++ out). rewrite !mrun_app, Hmr.
          cbn [mrun]. rewrite Hst, Ho. split; [|split; [exact Hw'|]].
          -- rewrite <- ?app_assoc. reflexivity.
          -- cbn [map List.app]. rewrite <- !app_assoc. f_equal. cbn [List.app]. f_equal. exact He.
        * destruct (IH false m1 f1 [j_bytes j] ts1 m2 Hm1 Hsup Hpk' Hcl') as (f' & out & Ho & Hw' & He); auto.
          { split; [reflexivity|eauto]. }
          exists f', (pend ++ out). rewrite !mrun_app, Hmr. cbn [mrun List.app]. rewrite Ho. rewrite Hlo2 in *.
          split; [rewrite ?app_nil_r; reflexivity|].
          split; [exact Hw'|]. rewrite <- app_assoc, <- He. reflexivity.
  Qed.
End Heard.

Lemma complete_left_over : forall c js, map j_bytes js = complete_packets c js ++ left_over c js [].
Proof.
  intros c js. unfold complete_packets, left_over. destruct (rev js) as [|j r] eqn:E.
  - apply (f_equal (@rev _)) in E. rewrite rev_involutive in E. subst js. reflexivity.
  - apply (f_equal (@rev _)) in E. rewrite rev_involutive in E. cbn [rev] in E. subst js.
    rewrite map_app. cbn [map]. rewrite removelast_last.
    destruct (closing c j) as [[|]|]; rewrite ?app_nil_r; reflexivity.
Qed.

Theorem rmt_end_to_end : forall (I : Type) (E : Env I) c js ts m i dos s es,
  within_ranges c -> Forall (fun j => packet_ok (j_bytes j)) js -> Forall (closes c) js ->
  all_supplied c true js -> channel c rmt_reset js = Some (ts, m) ->
  filter is_receive dos = map OReceive ts -> ~ In ODisable dos ->
  never_full dos listener0 -> run E dos (st0 i) = Ok (tt, s, es) ->
  heard dos listener0 = complete_packets c js /\
  heard dos listener0 = SpecRx.taken dos listener0 ++ r_deque (rxs s).
Proof.
  intros I E c js ts m i dos s es Hc Hpk Hcl Hsup Hch Hdos Hnd Hnf Hrun.
  split; [|apply (fifo E i dos s es Hrun)].
  rewrite (heard_machine E dos _ _ _ _ (Rl0 i) Hrun Hnd Hnf).
  rewrite (half_bits_in_receives _ _ Hdos).
  destruct (mrun_channel c Hc js true rmt_reset (r_fsm (rxs (st0 i))) [] ts m) as (f' & out & Ho & _ & He); auto.
  - reflexivity.
  - cbn. repeat split.
  - congruence.
  - rewrite Ho. cbn [snd]. rewrite (complete_left_over c js) in He. cbn [List.app] in He.
    apply app_inv_tail in He. congruence.
Qed.

Theorem channel_total : forall c js first m, within_ranges c -> Forall (fun j => packet_ok (j_bytes j)) js ->
  all_supplied c first js -> SpecRmt.between first m -> exists ts m', channel c m js = Some (ts, m').
Proof.
  intros c js. induction js as [|j js IH]; intros first m Hc Hpk Hsup Hm; [eexists _, _; reflexivity|].
  cbn [channel all_supplied] in *. destruct Hsup as [[Hun Hlen] Hsup]. inversion Hpk as [|? ? Hpj Hpk']; subst.
  assert (Hne : j_bytes j <> []).
  { destruct Hpj as (_ & Hl & _). intro H. rewrite H in Hl. cbn in Hl. lia. }
  destruct (session_unsplit c first (j_bytes j) m (j_memory j) Hc Hne Hm Hun) as (m1 & -> & Hm1).
  rewrite (proj2 (Nat.leb_le _ _) Hlen).
  destruct (IH false m1 Hc Hpk' Hsup (Hm1 Hlen)) as (ts & m' & ->). eexists _, _. reflexivity.
Qed.
