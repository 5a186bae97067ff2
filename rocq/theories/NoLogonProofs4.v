(** A station that sends logon packets and a decoder without automatic logon *)
From Verif Require Import Prelude Address ZBits SpecCodec SpecTx TxProofs Tx RxState Rx CodecProofs RxLogic SpecRx
  RxBitProofs RxBitProofs2 RxBitProofs3 RxBitProofs4 RxBitProofs5 SpecConf SpecExec SpecCv SpecLayout LayoutProofs4 LayoutProofs5
  SpecLine LineProofs StationProofs TxPreempt SpecTxPreempt TxPreemptProofs
  Preempt SpecPreempt PreemptProofs PreemptProofs2 PreemptProofs4 SpecTorn TornProofs TornProofs2
  PreemptLoop SpecLoop LoopProofs SpecWhole WholeProofs SpecWhole2 SpecNoLogon NoLogonProofs3.

Lemma idle_sendable : sendable [0xFF; 0x00; 0xFF].
Proof. destruct idle_ok as (A & B & C & _). split; [exact A|]. split; [exact B|exact C]. Qed.

(** ** The bit registers never overflow on such a track *)

Lemma fits_frame : forall n bs f, sendable bs -> (10 <= n)%nat -> between f ->
  fits f (doubled (track_bits n bs)) /\ between (fst (mrun f (doubled (track_bits n bs)))).
Proof.
  intros n bs f Hok Hn Hb. split.
  2: { destruct (crun_packet n bs f Hok Hn Hb) as (init & f1 & f2 & -> & Hi & Hm & Hb2).
       rewrite <- crun_mrun, crun_app, Hi. cbn [crun]. rewrite Hm. exact Hb2. }
  destruct Hok as (Hby & Hlen & Hx). destruct Hb as (H1 & H2 & H3 & H4).
  destruct bs as [|b bs]; [cbn [length] in Hlen; lia|].
  inversion Hby as [|? ? Hb1 Hb2]; subst.
  rewrite track_bits_split by discriminate. unfold frame_bits. cbn [flat_map List.app tl].
  rewrite !doubled_app. 
  destruct f as [ph bc by_ ck hb pk pe]. cbn in H1, H2, H3, H4. subst ph bc by_ ck.
  pose proof (silent_ones (2 * n) 0 (Mk_fsm Preamble 0 0 0 hb pk pe) eq_refl eq_refl ltac:(lia)) as S1.
  apply fits_app. split; [exact (silent_fits _ _ _ S1)|]. rewrite (silent_mrun _ _ _ S1). cbn [fst].
  unfold upd_f_bit_count, upd_f_packet_end. cbn [f_state f_byte f_checksum f_is_halfbit f_packet f_packet_end f_bit_count].
  assert (Hst : mrun (Mk_fsm Preamble (0 + 2 * n) 0 0 hb pk false) [false; false] = (Mk_fsm Data 0 0 0 false [] false, [])).
  { cbn [mrun]. unfold mstep, machine_hb, machine_bit. cbn -[Nat.ltb Nat.mul].
    replace (2 * n <? 20)%nat with false by (symmetry; apply Nat.ltb_ge; lia). reflexivity. }
  match goal with |- fits ?f (?x :: ?y :: ?r) => change (fits f ([x; y] ++ r)) end.
  apply fits_app. split.
  { cbn [fits]. unfold mstep, machine_hb, machine_bit. cbn -[Nat.ltb Nat.mul].
    replace (2 * n <? 20)%nat with false by (symmetry; apply Nat.ltb_ge; lia).
    cbn. repeat split; discriminate. }
  rewrite Hst. cbn [fst]. rewrite ?doubled_app, <- ?app_assoc.
  pose proof (silent_byte b 0 [] Hb1 ltac:(unfold byte; lia) ltac:(cbn [length]; lia)) as S2.
  apply fits_app. split; [exact (silent_fits _ _ _ S2)|]. rewrite (silent_mrun _ _ _ S2). cbn [fst].
  pose proof (silent_bytes bs (Z.lxor 0 b) ([] ++ [b]) Hb2
      ltac:(rewrite Z.lxor_0_l; exact Hb1) ltac:(cbn [length List.app] in *; lia)) as S3.
  apply fits_app. split; [exact (silent_fits _ _ _ S3)|]. rewrite (silent_mrun _ _ _ S3). cbn [fst].
  change (doubled [true]) with [true; true]. cbn [fits].
  rewrite Z.lxor_0_l. change (Z.lxor b (xor_all bs)) with (xor_all (b :: bs)). rewrite Hx.
  unfold mstep, machine_hb, machine_bit. cbn -[Nat.leb length is_logon].
  replace (3 <=? length (b :: bs))%nat with true by (symmetry; apply Nat.leb_le; lia).
  cbn -[Nat.leb length is_logon]. repeat (split; [discriminate|]). exact Logic.I.
Qed.

Lemma fits_line : forall c ps f, config_ok c -> Forall (fun p => sendable (bytes p)) ps -> between f ->
  fits f (halves_of (map fst (flat_map (on_track c) ps))).
Proof.
  intros c ps. induction ps as [|p ps IH]; intros f Hc Hps Hf; [exact Logic.I|].
  inversion Hps as [|? ? Hp Hps']; subst. cbn [flat_map].
  rewrite map_app. unfold on_track at 1. rewrite map_app, alternate_fst. fold (halves c p).
  rewrite <- app_assoc, halves_of_app, (halves_of_map _ _ (halves_heard c p Hc)).
  destruct (fits_frame (match p with None => 17 | Some _ => Z.to_nat (num_preamble c) end) (bytes p) f Hp) as [F1 B1];
    [destruct Hc; destruct p; lia|exact Hf|]. fold (bits_of c p) in F1, B1.
  apply fits_app. split; [exact F1|]. rewrite halves_of_app.
  assert (Hcut : exists k, halves_of (map fst (if cfg_bidi c then SpecTx.cutout c else [])) = repeat false k).
  { destruct (cfg_bidi c); [exists 2%nat|exists 0%nat]; reflexivity. }
  destruct Hcut as (k & ->). destruct (fits_zeros k _ B1) as [F2 B2].
  apply fits_app. split; [exact F2|]. apply IH; assumption.
Qed.

Lemma fits_part : forall c ps n f, config_ok c -> Forall (fun p => sendable (bytes p)) ps -> between f ->
  fits f (halves_of (firstn n (map fst (flat_map (on_track c) ps)))).
Proof.
  intros c ps n f Hc Hps Hf. pose proof (fits_line c ps f Hc Hps Hf) as H.
  rewrite <- (firstn_skipn n (map fst (flat_map (on_track c) ps))), halves_of_app in H.
  apply fits_app in H. apply H.
Qed.

(** What a main loop hears are the packets finished on the track but for the logon packets *)
Lemma loop_carries : forall ts outs l f, Inv (l_heard l) f -> ~ In ODisable (loop_made ts outs) -> loop_roomy ts outs l ->
  fits f (half_bits_in (loop_made ts outs)) ->
  loop_heard ts outs l = filter ordinary (snd (crun f (half_bits_in (loop_made ts outs)))).
Proof.
  induction ts as [|[[os t] w] ts IH]; intros [|o outs] l f HI Hnd Hro Hf; try reflexivity.
  cbn [loop_made loop_roomy loop_heard] in *. destruct Hro as (R1 & R2 & R3).
  rewrite !half_bits_in_app in *. apply fits_app in Hf. destruct Hf as [F1 Hf]. rewrite <- crun_mrun in Hf.
  assert (N1 : ~ In ODisable os) by (intros H; apply Hnd, in_or_app; left; exact H).
  assert (N2 : ~ In ODisable (served o)) by (intros H; apply Hnd, in_or_app; right; apply in_or_app; left; exact H).
  assert (N3 : ~ In ODisable (loop_made ts outs)) by (intros H; apply Hnd, in_or_app; right; apply in_or_app; right; exact H).
  destruct (arrived_pure os l f HI N1 R1 F1) as [A1 I1]. rewrite crun_app in *.
  destruct (crun f (half_bits_in os)) as [f1 p1]. cbn [fst snd] in *. rewrite crun_app in *.
  apply fits_app in Hf. destruct Hf as [F2 F3]. rewrite <- crun_mrun in F3.
  destruct (arrived_pure (served o) (listen_all os l) f1 I1 N2 R2 F2) as [A2 I2].
  destruct (crun f1 (half_bits_in (served o))) as [f2 p2]. cbn [fst snd] in *.
  assert (I3 : Inv (l_heard (round os t o l)) f2) by (unfold round; destruct (packet_of t o); exact I2).
  pose proof (IH outs (round os t o l) f2 I3 N3 R3 F3) as K.
  destruct (crun f2 (half_bits_in (loop_made ts outs))) as [f3 p3]. cbn [fst snd] in *.
  rewrite !heard_arrived, A1, A2, K, !filter_app. reflexivity.
Qed.

Section NoLogon.
  Context {I : Type} (E : Env I) (m : I -> Z -> Z) (able : access -> Prop) (Hk : keeps_cvs able E m) (Hno : never_logs_on E).
  Hypothesis deaf : forall i d, e_hook E i (ETransmitBiDi d) = i.

  Theorem quiet_station : forall c xs s0, config_ok c -> (forall bs, In (XCall bs) xs -> sendable bs) ->
    tx_init c (tx_init_state 4) = Ok s0 ->
    exists outs g s1 ops h, xrun xs (SIdle, s0) = Ok (outs, (g, s1)) /\ placed xs (in_call g) ops /\
    flat_map SpecTx.call_of h = ops /\ ticks h = outs /\ history_ok c h /\
    forall before w ts i rs s es, Forall starting before -> Forall (Forall handler) w -> Forall (fun t => Forall (Forall handler) (snd t)) ts ->
      let loop := (before, TInit, w) :: ts in
      mainloop E loop (st0 i) = Ok (rs, s, es) ->
      filter is_receive (loop_made loop rs) = map OReceive (map fst outs) -> ~ In ODisable (loop_made loop rs) ->
      loop_roomy loop rs listener0 ->
      filter (fun p => negb (is_logon p)) (finished c (None :: started h) (length outs)) = loop_executed loop rs listener0 ++ r_deque (rxs s) /\
      let x := obey_all (e_east_west E) (loop_executed loop rs listener0) (new_view (m i)) in
      Forall (allowed able) (snd x) ->
      seen_in es = snd x /\ (forall a, m (Rx.app s) a = v_cvs (fst x) a) /\
      in_service s = v_service (fst x) /\ page s = v_page (fst x).
  Proof.
    intros c xs s0 Hc Hpk H0. assert (Hl : forall bs, In (XCall bs) xs -> (length bs <= 18)%nat) by (intros bs Hb; apply (Hpk bs Hb)).
    destruct (linear c xs s0 Hc Hl H0) as (outs & g & s1 & ops & os & t & H1 & H2 & H3 & H4 & H5 & _).
    destruct (tx_history c ops Hc H3) as (ys & tx & h & Htx & Hcall & Hres & Hh).
    rewrite H4 in Htx. injection Htx as <- <-. exists outs, g, s1, ops, h.
    split; [exact H1|]. split; [exact H2|]. split; [exact Hcall|].
    assert (Ho : ticks h = outs) by (rewrite H5, <- Hres, intervals_ticks; reflexivity).
    split; [exact Ho|]. split; [exact Hh|]. intros before w ts i rs s es Hbe Hwi Hw loop Hrun Hdos Hnd Hro.
    assert (Hps : Forall (fun p => sendable (bytes p)) (None :: started h)).
    { constructor; [exact idle_sendable|]. apply Forall_forall. intros p Hp.
      destruct p as [bs|]; [|exact idle_sendable]. cbn [bytes]. apply Hpk, (proj1 (placed_calls _ _ _ H2)).
      rewrite <- Hcall. clear - Hp Hh.
      assert (Hq : In bs (queued h)).
      { unfold started in Hp. apply in_flat_map in Hp. destruct Hp as (e & He & Hp).
        destruct e as [| |q|]; try contradiction. destruct Hp as [-> |[]].
        apply in_split in He. destruct He as (h1 & h2 & ->).
        destruct (Hh h1 (Started (Some bs)) h2 eq_refl) as (ws & Hw & Hhd & _).
        rewrite queued_app. apply in_or_app. left. unfold waiting in Hw. rewrite Hw. apply in_or_app. right.
        destruct ws; [discriminate|]. inversion Hhd. left. reflexivity. }
      unfold queued in Hq. apply in_flat_map in Hq. destruct Hq as (e & He & Hq).
      destruct e; try contradiction. destruct Hq as [-> |[]].
      apply in_flat_map. exists (Queued bs). split; [exact He|left; reflexivity]. }
    destruct (ticks_prefix c h Hh) as (rest & Hrest). unfold SpecTx.track in Hrest.
    assert (Hfn : map fst outs = firstn (length outs) (map fst (flat_map (on_track c) (None :: started h)))).
    { rewrite <- Ho, <- Hrest, map_app, firstn_app, map_length, Nat.sub_diag, firstn_O, app_nil_r.
      rewrite firstn_all2; [reflexivity|rewrite map_length; lia]. }
    set (f0 := r_fsm (rxs (st0 i))).
    assert (Hb : between f0) by (repeat split).
    assert (HI : Inv (l_heard listener0) f0) by (cbn; auto).
    assert (Hhb : half_bits_in (loop_made loop rs) = halves_of (firstn (length outs) (map fst (flat_map (on_track c) (None :: started h)))))
      by (rewrite (half_bits_in_receives _ _ Hdos), Hfn; reflexivity).
    assert (Hcr : snd (crun f0 (half_bits_in (loop_made loop rs))) = finished c (None :: started h) (length outs)).
    { rewrite Hhb. apply crun_track; assumption. }
    assert (Hfi : fits f0 (half_bits_in (loop_made loop rs))) by (rewrite Hhb; apply fits_part; assumption).
    pose proof (loop_carries loop rs listener0 f0 HI Hnd Hro Hfi) as Hah.
    split.
    - rewrite <- Hcr. change (fun p => negb (is_logon p)) with ordinary. rewrite <- Hah. refine (proj2 (loop_fifo E loop i rs s es _ Hrun)). constructor; [apply handlers_interrupting; exact Hwi|].
      eapply Forall_impl; [|exact Hw]. intros u. apply handlers_interrupting.
    - intros x Hra. destruct (quiet_layout E m able Hk Hno deaf before w ts i rs s es Hbe Hwi Hw Hrun Hra) as (A & B & C & D & _). auto.
  Qed.
End NoLogon.
