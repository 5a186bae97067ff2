(** Command station, track and decoder together *)
From Verif Require Import Prelude Address ZBits SpecCodec SpecTx TxProofs Tx RxState Rx CodecProofs RxLogic SpecRx
  RxBitProofs RxBitProofs2 RxBitProofs3 RxBitProofs4 RxBitProofs5 SpecLayout LayoutProofs LayoutProofs2 LayoutProofs3
  LayoutProofs4 LayoutProofs5 SpecConf SpecExec SpecCv CvProofs ExecProofs.

Section Whole.
  Context {I : Type} (E : Env I) (m : I -> Z -> Z) (able : access -> Prop) (Hk : keeps_cvs able E m).
  Implicit Types s : st I.

  (** No logon packet is heard *)
  Lemma station_no_logon : forall c ops xs tx i dos s es,
    config_ok c -> Forall plain_op ops -> (forall bs, In (TBytes bs) ops -> packet_ok bs) ->
    tx_run (TInit c :: ops) (tx_init_state 4) = Ok ((None, []) :: xs, tx) ->
    filter is_receive dos = map OReceive (map fst (intervals xs)) -> ~ In ODisable dos ->
    never_full dos listener0 -> run E dos (st0 i) = Ok (tt, s, es) -> logons dos listener0 = [].
  Proof.
    intros c ops xs tx i dos s es Hc Hops Hpk Htx Hdos Hnd Hnf Hrun.
    destruct (tx_history c ops Hc Hops) as (xs' & s' & h & Htx' & Hcall & Hres & Hh).
    assert (Hxs : xs' = xs) by congruence. rewrite Hxs in Hres.
    rewrite (logons_machine E dos _ _ _ _ (Rl0 i) Hrun Hnd Hnf).
    rewrite (half_bits_in_receives _ _ Hdos), <- Hres, intervals_ticks.
    destruct (ticks_prefix c h Hh) as (rest & Hrest). unfold track in Hrest.
    assert (Hfn : map fst (ticks h) = firstn (length (ticks h)) (map fst (flat_map (on_track c) (None :: started h)))).
    { rewrite <- Hrest, map_app, firstn_app, map_length, Nat.sub_diag, firstn_O, app_nil_r.
      rewrite firstn_all2; [reflexivity|rewrite map_length; lia]. }
    rewrite Hfn. apply lrun_track; [exact Hc| |repeat split].
    constructor; [exact idle_ok|]. apply Forall_forall. intros p Hp.
    destruct p as [bs|]; [|exact idle_ok]. cbn [bytes]. apply Hpk.
    rewrite <- Hcall. clear - Hp Hh.
    assert (Hq : In bs (queued h)).
    { unfold started in Hp. apply in_flat_map in Hp. destruct Hp as (e & He & Hp).
      destruct e as [| |q|]; try contradiction. destruct Hp as [-> |[]].
      apply in_split in He. destruct He as (h1 & h2 & ->).
      destruct (Hh h1 (Started (Some bs)) h2 eq_refl) as (ws & Hw & Hhd & _).
      rewrite queued_app. apply in_or_app. left. unfold waiting in Hw. rewrite Hw. apply in_or_app. right.
      destruct ws; [discriminate|]. inversion Hhd. left. reflexivity. }
    unfold queued in Hq. apply in_flat_map in Hq. destruct Hq as (e & He & Hq).
    destruct e; try contradiction. destruct Hq as [-> |[]].
    apply in_flat_map. exists (Queued bs). split; [exact He|left; reflexivity].
  Qed.

  Lemma whole_layout : forall c ops xs tx i dos s es,
    config_ok c -> Forall plain_op ops -> (forall bs, In (TBytes bs) ops -> packet_ok bs) ->
    tx_run (TInit c :: ops) (tx_init_state 4) = Ok ((None, []) :: xs, tx) ->
    filter is_receive dos = map OReceive (map fst (intervals xs)) -> ~ In ODisable dos ->
    never_full dos listener0 -> run E (OInit :: dos) (st0 i) = Ok (tt, s, es) ->
    exists h done, flat_map call_of h = ops /\ flat_map result_of h = xs /\ history_ok c h /\
      finished c (None :: started h) (length (ticks h)) = done ++ r_deque (rxs s) /\
      let x := obey_all (e_east_west E) done (new_view (m i)) in
      Forall (allowed able) (snd x) ->
      seen_in es = snd x /\ (forall a, m (Rx.app s) a = v_cvs (fst x) a) /\
      in_service s = v_service (fst x) /\ page s = v_page (fst x).
  Proof.
    intros c ops xs tx i dos s es Hc Hops Hpk Htx Hdos Hnd Hnf Hrun.
    assert (Hnf1 : never_full (OInit :: dos) listener0).
    { intros [|a os1] os2 He; [cbn; lia|]. cbn [List.app] in He. inversion He; subst.
      exact (Hnf os1 os2 eq_refl). }
    assert (Hnd1 : ~ In ODisable (OInit :: dos)) by (intros [H|H]; [discriminate|exact (Hnd H)]).
    destruct (end_to_end E c ops xs tx i (OInit :: dos) s es Hc Hops Hpk Htx Hdos Hnd1 Hnf1 Hrun)
      as (h & H1 & H2 & H3 & H4 & H5).
    exists h, (taken dos listener0). split; [exact H1|]. split; [exact H2|]. split; [exact H3|].
    split; [rewrite <- H4, H5; reflexivity|].
    apply (layout E m able Hk); [exact Hrun|].
    assert (Hlo := station_no_logon c ops xs tx i (OInit :: dos) s es Hc Hops Hpk Htx Hdos Hnd1 Hnf1 Hrun).
    exact Hlo.
  Qed.
End Whole.
