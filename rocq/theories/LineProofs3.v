(** Nothing undefined happens between a station that also sends logon packets and a decoder *)
From Verif Require Import Prelude Address ZBits SpecCodec SpecTx TxProofs Tx RxState Rx CodecProofs CodecProofs2 RxLogic SpecRx
  RxBitProofs RxBitProofs2 RxBitProofs3 RxBitProofs4 RxBitProofs5 SpecExec SpecConf SpecCv SpecLogon SpecBidi SpecSafe SafeProofs2
  SpecLayout LayoutProofs4 LayoutProofs5 SpecLayout2 SpecStation StationProofs StationProofs2 SpecNode SpecLine LineProofs LineProofs2.

Lemma crun_arun : forall hs f, arun f hs = snd (crun f hs) /\ fst (mrun f hs) = fst (crun f hs).
Proof.
  induction hs as [|b hs IH]; intros f; [split; reflexivity|]. cbn [arun crun mrun]. unfold cstep, mstep.
  destruct (machine_hb false f b) as [f' a]. destruct a; cbn [fst];
    match goal with |- context [crun ?g hs] => destruct (IH g) as [K1 K2]; destruct (crun g hs); destruct (mrun g hs); cbn [fst snd] in *;
      rewrite K1; split; [reflexivity|exact K2] end.
Qed.

Lemma fits_sent : forall n bs f, sendable bs -> (10 <= n)%nat -> between f ->
  fits f (doubled (track_bits n bs)) /\ between (fst (mrun f (doubled (track_bits n bs)))).
Proof.
  intros n bs f Hok Hn Hb. split.
  2: { rewrite (proj2 (crun_arun _ _)). destruct (crun_packet n bs f Hok Hn Hb) as (init & f1 & f2 & -> & Hi & Hm & Hb2).
       rewrite crun_app, Hi. cbn [crun]. rewrite Hm. exact Hb2. }
  destruct Hok as (Hby & Hlen & Hx). destruct Hb as (H1 & H2 & H3 & H4).
  destruct bs as [|b bs]; [cbn [length] in Hlen; lia|].
  inversion Hby as [|? ? Hb1 Hb2]; subst.
  rewrite track_bits_split by discriminate. unfold frame_bits. cbn [flat_map List.app tl].
  rewrite !doubled_app.
  destruct f as [ph bc by_ ck hb pk pe]. cbn in H1, H2, H3, H4. subst ph bc by_ ck.
  pose proof (silent_ones (2 * n) 0 (Mk_fsm Preamble 0 0 0 hb pk pe) eq_refl eq_refl ltac:(lia)) as S1.
  apply fits_app. split; [exact (silent_fits _ _ _ S1)|]. rewrite (silent_mrun _ _ _ S1). cbn [fst].
  unfold upd_f_bit_count, upd_f_packet_end. cbn [f_state f_byte f_checksum f_is_halfbit f_packet f_packet_end f_bit_count].
  assert (Hst : mrun (Mk_fsm Preamble (0 + 2 * n) 0 0 hb pk false) [false; false] = (Mk_fsm Data 0 0 0 false [] false, [])).
  { cbn [mrun]. unfold mstep, machine_hb, machine_bit. cbn -[Nat.ltb Nat.mul].
    replace (2 * n <? 20)%nat with false by (symmetry; apply Nat.ltb_ge; lia). reflexivity. }
  match goal with |- fits ?f (?x :: ?y :: ?r) => change (fits f ([x; y] ++ r)) end.
  apply fits_app. split.
  { cbn [fits]. unfold mstep, machine_hb, machine_bit. cbn -[Nat.ltb Nat.mul].
    replace (2 * n <? 20)%nat with false by (symmetry; apply Nat.ltb_ge; lia).
    cbn. repeat split; discriminate. }
  rewrite Hst. cbn [fst]. rewrite ?doubled_app, <- ?app_assoc.
  pose proof (silent_byte b 0 [] Hb1 ltac:(unfold byte; lia) ltac:(cbn [length]; lia)) as S2.
  apply fits_app. split; [exact (silent_fits _ _ _ S2)|]. rewrite (silent_mrun _ _ _ S2). cbn [fst].
  pose proof (silent_bytes bs (Z.lxor 0 b) ([] ++ [b]) Hb2
      ltac:(rewrite Z.lxor_0_l; exact Hb1) ltac:(cbn [length List.app] in *; lia)) as S3.
  apply fits_app. split; [exact (silent_fits _ _ _ S3)|]. rewrite (silent_mrun _ _ _ S3). cbn [fst].
  change (doubled [true]) with [true; true]. cbn [fits].
  rewrite Z.lxor_0_l. change (Z.lxor b (xor_all bs)) with (xor_all (b :: bs)). rewrite Hx.
  unfold mstep, machine_hb, machine_bit. cbn -[Nat.leb length is_logon].
  replace (3 <=? length (b :: bs))%nat with true by (symmetry; apply Nat.leb_le; lia).
  cbn -[Nat.leb length is_logon]. repeat (split; [discriminate|]). exact Logic.I.
Qed.

Lemma fits_line : forall c ps n f, config_ok c -> Forall (fun p => sendable (bytes p)) ps -> between f ->
  fits f (halves_of (firstn n (map fst (flat_map (on_track c) ps)))).
Proof.
  intros c ps n f Hc Hps Hf.
  assert (H : fits f (halves_of (map fst (flat_map (on_track c) ps)))).
  { revert f Hps Hf. induction ps as [|p ps IH]; intros f Hps Hf; [exact Logic.I|].
    inversion Hps as [|? ? Hp Hps']; subst. cbn [flat_map].
    rewrite map_app. unfold on_track at 1. rewrite map_app, alternate_fst. fold (halves c p).
    rewrite <- app_assoc, halves_of_app, (halves_of_map _ _ (halves_heard c p Hc)).
    destruct (fits_sent (match p with None => 17 | Some _ => Z.to_nat (num_preamble c) end) (bytes p) f Hp) as [F1 B1];
      [destruct Hc; destruct p; lia|exact Hf|]. fold (bits_of c p) in F1, B1.
    apply fits_app. split; [exact F1|]. rewrite halves_of_app.
    assert (Hcut : exists k, halves_of (map fst (if cfg_bidi c then SpecTx.cutout c else [])) = repeat false k).
    { destruct (cfg_bidi c); [exists 2%nat|exists 0%nat]; reflexivity. }
    destruct Hcut as (k & ->). destruct (fits_zeros k _ B1) as [F2 B2].
    apply fits_app. split; [exact F2|]. apply IH; assumption. }
  rewrite <- (firstn_skipn n (map fst (flat_map (on_track c) ps))), halves_of_app in H.
  apply fits_app in H. apply H.
Qed.

Lemma line_orderly : forall c h dos, config_ok c -> history_ok c h ->
  Forall sendable (queued h) -> Forall complete (queued h) ->
  filter is_receive dos = map OReceive (map fst (ticks h)) -> ~ In ODisable dos -> never_full dos listener0 ->
  on_time dos -> fetched dos -> orderly complete dos.
Proof.
  intros c h dos Hc Hh Hpk Hse Hdos Hnd Hnf Hon Hfe.
  assert (Hid : complete [0xFF; 0; 0xFF]) by (exact (generated_complete _ gen_idle)).
  destruct (ticks_prefix c h Hh) as (rest & Hrest). unfold track in Hrest.
  assert (Hfn : map fst (ticks h) = firstn (length (ticks h)) (map fst (flat_map (on_track c) (None :: started h)))).
  { rewrite <- Hrest, map_app, firstn_app, map_length, Nat.sub_diag, firstn_O, app_nil_r.
    rewrite firstn_all2; [reflexivity|rewrite map_length; lia]. }
  assert (Hok : Forall (fun p => sendable (bytes p)) (None :: started h)).
  { constructor; [exact idle_sendable|]. apply Forall_forall. intros [bs|] Hp; [|exact idle_sendable]. cbn [bytes].
    exact (proj1 (Forall_forall _ _) Hpk bs (started_queued c h bs Hh Hp)). }
  set (f0 := reset_fsm (Mk_fsm Preamble 0 0 0 false [] false)).
  assert (Hb : between f0) by (repeat split).
  assert (Hfits : fits f0 (half_bits_in dos)).
  { rewrite (half_bits_in_receives _ _ Hdos), Hfn. apply fits_line; assumption. }
  assert (Hall : forall p, In p (arun f0 (half_bits_in dos)) -> complete p).
  { intros p Hp. rewrite (proj1 (crun_arun _ _)), (half_bits_in_receives _ _ Hdos), Hfn, crun_track in Hp by assumption.
    apply finished_In in Hp. cbn [map] in Hp. destruct Hp as [<-|Hp]; [exact Hid|].
    apply in_map_iff in Hp. destruct Hp as (q & <- & Hq). destruct q as [bs|]; [|exact Hid].
    cbn [bytes]. apply (started_queued c h bs Hh) in Hq. rewrite Forall_forall in Hse. exact (Hse bs Hq). }
  assert (HI0 : Inv (l_heard listener0) f0) by (unfold f0, Inv; cbn; auto).
  pose proof (listener_machine dos listener0 f0 HI0 Hnd Hnf Hfits) as HL.
  intros os1 o os2 He. cbv zeta. specialize (Hon os1 o os2 He).
  destruct (HL os1 o os2 He) as [H1 H2]. destruct o as [| | |t| |ds| | |i v]; try exact Logic.I; try exact Hon.
  split; [|split].
  - destruct (half_bit t) as [b|] eqn:Et; [|exact Logic.I]. exact (H1 t b eq_refl Et).
  - intros p Hp. exact (Hall p (H2 p Hp)).
  - exact (Hfe os1 t os2 He).
Qed.

Section Total.
  Context {I : Type} (E : Env I) (time : I -> Z) (HE : short_cv1 E) (HC : clock E time).

  Lemma line_total : forall c h i dos, 0 <= time i -> config_ok c -> history_ok c h ->
    Forall sendable (queued h) -> Forall complete (queued h) ->
    filter is_receive dos = map OReceive (map fst (ticks h)) -> ~ In ODisable dos -> never_full dos listener0 ->
    on_time dos -> fetched dos -> exists s es, run E (OInit :: dos) (st0 i) = Ok (tt, s, es).
  Proof.
    intros c h i dos Hi Hc Hh Hpk Hco Hdos Hnd Hnf Hon Hfe. apply (history E HE time HC i _ Hi).
    apply (line_orderly c h); try assumption.
    - intros [H|H]; [discriminate H|exact (Hnd H)].
    - intros [|a os1] os2 He; [cbn; lia|]. cbn [List.app] in He. injection He as <- He.
      exact (Hnf os1 os2 He).
    - intros [|a os1] o os2 He; cbn [List.app] in He; [injection He as <- _; exact Logic.I|].
      injection He as <- He. exact (Hon os1 o os2 He).
    - intros [|a os1] t os2 He; cbn [List.app] in He; [discriminate He|]. injection He as <- He.
      intros [|a u1] v u2 p Hu Hp Hl; cbn [List.app] in Hu; [discriminate Hu|]. injection Hu as <- Hu.
      exact (Hfe os1 t os2 He u1 v u2 p Hu Hp Hl).
  Qed.

  Theorem line_defined : forall c ops i, 0 <= time i -> config_ok c -> Forall plain_op ops ->
    (forall bs, In (TBytes bs) ops -> sendable bs /\ complete bs) ->
    exists xs tx, tx_run (TInit c :: ops) (tx_init_state 4) = Ok ((None, []) :: xs, tx) /\
    forall dos, filter is_receive dos = map OReceive (map fst (intervals xs)) -> ~ In ODisable dos ->
      never_full dos listener0 -> on_time dos -> fetched dos -> exists s es, run E (OInit :: dos) (st0 i) = Ok (tt, s, es).
  Proof.
    intros c ops i Hi Hc Hops Hpk. destruct (tx_history c ops Hc Hops) as (xs & tx & h & Htx & Hcall & Hres & Hh).
    exists xs, tx. split; [exact Htx|]. intros dos Hdos Hnd Hnf Hon Hfe.
    rewrite <- Hres, intervals_ticks in Hdos.
    assert (Hq : forall bs, In bs (queued h) -> sendable bs /\ complete bs).
    { intros bs Hb. apply Hpk. rewrite <- Hcall. apply queued_calls. exact Hb. }
    apply (line_total c h); try assumption; apply Forall_forall; intros bs Hb; apply (Hq bs Hb).
  Qed.
End Total.
