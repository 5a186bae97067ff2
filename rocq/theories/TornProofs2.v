(** Station and decoder, both interrupted all the time *)
From Verif Require Import Prelude Address ZBits SpecCodec SpecTx TxProofs Tx RxState Rx CodecProofs RxLogic SpecRx
  RxBitProofs RxBitProofs2 RxBitProofs3 RxBitProofs4 RxBitProofs5 SpecConf SpecExec SpecCv SpecLayout LayoutProofs4 LayoutProofs5
  SpecLine LineProofs StationProofs TxPreempt SpecTxPreempt TxPreemptProofs
  Preempt SpecPreempt PreemptProofs PreemptProofs2 PreemptProofs4 SpecTorn TornProofs.

Lemma cstep_mstep : forall f b, fst (cstep f b) = fst (mstep f b).
Proof. intros f b. unfold cstep, mstep. destruct (machine_hb false f b) as [f' []]; reflexivity. Qed.
Lemma crun_mrun : forall hs f, fst (crun f hs) = fst (mrun f hs).
Proof.
  induction hs as [|b hs IH]; intros f; [reflexivity|]. cbn [crun mrun]. pose proof (cstep_mstep f b) as H.
  destruct (cstep f b) as [f1 p1], (mstep f b) as [f2 p2]. cbn [fst] in H. subst f2. pose proof (IH f1) as H.
  destruct (crun f1 hs), (mrun f1 hs). exact H.
Qed.

(** What a listener hears depends on the half bits only *)
Lemma completed_step : forall o l f, Inv (l_heard l) f -> o <> ODisable -> (length (l_queue l) < 31)%nat ->
  fits f (half_bits_in [o]) ->
  match completed o l with Some bs => [bs] | None => [] end = snd (crun f (half_bits_in [o])) /\
  Inv (l_heard (listen o l)) (fst (crun f (half_bits_in [o]))).
Proof.
  intros o l f HI Ho Hq Hf. destruct o as [| | |t| |ds| | |i v]; try (split; [reflexivity|exact HI]).
  - elim Ho. reflexivity.
  - cbn [completed listen half_bits_in flat_map] in *. destruct (half_bit t) as [b|] eqn:Et; [|split; [reflexivity|exact HI]].
    cbv zeta. unfold hear. cbv zeta. replace (length (l_queue l) =? 31)%nat with false by (symmetry; apply Nat.eqb_neq; lia).
    rewrite andb_false_r. cbn [List.app fits crun] in *. destruct Hf as [Hf _].
    pose proof (machine_sim (l_heard l) f false b t HI Et) as Hs. cbv zeta in Hs. rewrite andb_false_r in Hs.
    rewrite (machine_some _ _ _ _ Et) in Hs. unfold cstep.
    destruct (machine_hb false f b) as [f' a] eqn:Em. cbn [fst snd] in Hs, Hf.
    destruct (reading (l_heard l ++ [b])) as [| |bs] eqn:Er.
    + destruct Hs as [[-> _]|[[-> | ->] (HI' & _)]]; [elim Hf; reflexivity| |]; split; auto.
    + destruct Hs as (-> & HI' & _). split; auto.
    + destruct Hs as (_ & _ & Hs). destruct (valid_packet bs).
      * destruct Hs as [-> <-]. split; [reflexivity|]. cbn [fst l_heard]. apply Inv_reset.
      * destruct Hs as (-> & HI' & _). split; auto.
  - split; [reflexivity|]. cbn [listen]. destruct (l_fresh l); exact HI.
Qed.

Lemma arrived_pure : forall os l f, Inv (l_heard l) f -> ~ In ODisable os -> never_full os l -> fits f (half_bits_in os) ->
  arrived os l = snd (crun f (half_bits_in os)) /\ Inv (l_heard (listen_all os l)) (fst (crun f (half_bits_in os))).
Proof.
  induction os as [|o os IH]; intros l f HI Hnd Hnf Hf; [split; [reflexivity|exact HI]|].
  change (half_bits_in (o :: os)) with (half_bits_in ([o] ++ os)) in *. rewrite half_bits_in_app in *.
  apply fits_app in Hf. destruct Hf as [F1 F2]. rewrite <- crun_mrun in F2. rewrite crun_app. cbn [arrived].
  destruct (completed_step o l f HI) as [C1 C2]; [intros ->; apply Hnd; left; reflexivity|exact (Hnf [] (o :: os) eq_refl)|exact F1|].
  rewrite C1. destruct (crun f (half_bits_in [o])) as [f1 p1]. cbn [fst snd] in *.
  destruct (IH (listen o l) f1 C2) as [D1 D2]; [intros H; apply Hnd; right; exact H| |exact F2|].
  { intros a c Ha. specialize (Hnf (o :: a) c). rewrite listen_all_cons in Hnf. apply Hnf. rewrite Ha. reflexivity. }
  rewrite D1, listen_all_cons. destruct (crun f1 (half_bits_in os)) as [f2 p2]. cbn [fst snd] in *. auto.
Qed.

Definition ordinary (p : list Z) : bool := negb (is_logon p).
Lemma heard_arrived : forall os l, heard os l = filter ordinary (arrived os l).
Proof.
  induction os as [|o os IH]; intros l; [reflexivity|]. cbn [heard arrived]. rewrite filter_app, IH. f_equal.
  destruct (completed o l) as [bs|]; [|reflexivity]. cbn [filter]. unfold ordinary. destruct (is_logon bs); reflexivity.
Qed.
Lemma logons_arrived : forall os l, logons os l = filter is_logon (arrived os l).
Proof.
  induction os as [|o os IH]; intros l; [reflexivity|]. cbn [logons arrived]. rewrite filter_app, IH. f_equal.
  destruct (completed o l) as [bs|]; [|reflexivity]. cbn [filter]. destruct (is_logon bs); reflexivity.
Qed.
Lemma no_logons : forall ps, Forall (fun p => is_logon p = false) ps -> filter ordinary ps = ps /\ filter is_logon ps = [].
Proof.
  induction 1 as [|p ps H _ [IH1 IH2]]; [split; reflexivity|]. cbn [filter]. unfold ordinary at 1. rewrite H, IH1, IH2. split; reflexivity.
Qed.
Lemma without_heard : forall o l, l_heard (without_first o l) = l_heard l.
Proof. intros o l. unfold without_first. destruct (worked_on o); reflexivity. Qed.

(** ... in a session too *)
Lemma session_pure : forall ts outs l f, Inv (l_heard l) f -> ~ In ODisable (all_calls ts outs) -> roomy ts outs l ->
  fits f (half_bits_in (all_calls ts outs)) ->
  Forall (fun p => is_logon p = false) (snd (crun f (half_bits_in (all_calls ts outs)))) ->
  unassigned ts outs l /\ all_heard ts outs l = snd (crun f (half_bits_in (all_calls ts outs))).
Proof.
  induction ts as [|[os w] ts IH]; intros [|o outs] l f HI Hnd Hro Hf Hp; try (split; [exact Logic.I|reflexivity]).
  cbn [all_calls roomy unassigned all_heard] in *. destruct Hro as (R1 & R2 & R3).
  rewrite !half_bits_in_app in *. apply fits_app in Hf. destruct Hf as [F1 Hf]. rewrite <- crun_mrun in Hf.
  assert (N1 : ~ In ODisable os) by (intros H; apply Hnd, in_or_app; left; exact H).
  assert (N2 : ~ In ODisable (served o)) by (intros H; apply Hnd, in_or_app; right; apply in_or_app; left; exact H).
  assert (N3 : ~ In ODisable (all_calls ts outs)) by (intros H; apply Hnd, in_or_app; right; apply in_or_app; right; exact H).
  destruct (arrived_pure os l f HI N1 R1 F1) as [A1 I1]. rewrite crun_app in *.
  destruct (crun f (half_bits_in os)) as [f1 p1]. cbn [fst snd] in *. rewrite crun_app in *.
  apply fits_app in Hf. destruct Hf as [F2 F3]. rewrite <- crun_mrun in F3.
  destruct (arrived_pure (served o) (listen_all os l) f1 I1 N2 R2 F2) as [A2 I2].
  destruct (crun f1 (half_bits_in (served o))) as [f2 p2]. cbn [fst snd] in *.
  assert (I3 : Inv (l_heard (turn os o l)) f2) by (unfold turn; rewrite without_heard; exact I2).
  pose proof (IH outs (turn os o l) f2 I3 N3 R3 F3) as K.
  destruct (crun f2 (half_bits_in (all_calls ts outs))) as [f3 p3]. cbn [fst snd] in *.
  apply Forall_app in Hp. destruct Hp as [P1 Hp]. apply Forall_app in Hp. destruct Hp as [P2 P3].
  destruct (K P3) as [K1 K2]. destruct (no_logons p1 P1) as [B1 B2]. destruct (no_logons p2 P2) as [B3 B4].
  rewrite !heard_arrived, !logons_arrived, A1, A2, B1, B2, B3, B4, K2. auto.
Qed.

Section Both.
  Context {I : Type} (E : Env I) (m : I -> Z -> Z) (able : access -> Prop) (Hk : keeps_cvs able E m).
  Hypothesis deaf : forall i d, e_hook E i (ETransmitBiDi d) = i.

  Theorem both_interrupted : forall c xs s0, config_ok c -> (forall bs, In (XCall bs) xs -> packet_ok bs) ->
    tx_init c (tx_init_state 4) = Ok s0 ->
    exists outs g s1 ops h, xrun xs (SIdle, s0) = Ok (outs, (g, s1)) /\ placed xs (in_call g) ops /\
    flat_map call_of h = ops /\ ticks h = outs /\ history_ok c h /\
    forall ts i rs s es, Forall (fun t => Forall (Forall handler) (snd t)) ts ->
      bind (run E [OInit]) (fun _ => session E ts) (st0 i) = Ok (rs, s, es) ->
      filter is_receive (all_calls ts rs) = map OReceive (map fst outs) -> ~ In ODisable (all_calls ts rs) ->
      roomy ts rs listener0 ->
      finished c (None :: started h) (length outs) = all_executed ts rs listener0 ++ r_deque (rxs s) /\
      let x := obey_all (e_east_west E) (all_executed ts rs listener0) (new_view (m i)) in
      Forall (allowed able) (snd x) ->
      seen_in es = snd x /\ (forall a, m (Rx.app s) a = v_cvs (fst x) a) /\
      in_service s = v_service (fst x) /\ page s = v_page (fst x).
  Proof.
    intros c xs s0 Hc Hpk H0. assert (Hl : forall bs, In (XCall bs) xs -> (length bs <= 18)%nat) by (intros bs Hb; apply (Hpk bs Hb)).
    destruct (linear c xs s0 Hc Hl H0) as (outs & g & s1 & ops & os & t & H1 & H2 & H3 & H4 & H5 & _).
    destruct (tx_history c ops Hc H3) as (ys & tx & h & Htx & Hcall & Hres & Hh).
    rewrite H4 in Htx. injection Htx as <- <-. exists outs, g, s1, ops, h.
    split; [exact H1|]. split; [exact H2|]. split; [exact Hcall|].
    assert (Ho : ticks h = outs) by (rewrite H5, <- Hres, intervals_ticks; reflexivity).
    split; [exact Ho|]. split; [exact Hh|]. intros ts i rs s es Hw Hrun Hdos Hnd Hro.
    assert (Hps : Forall (fun p => packet_ok (bytes p)) (None :: started h)).
    { constructor; [exact idle_ok|]. apply Forall_forall. intros p Hp.
      destruct p as [bs|]; [|exact idle_ok]. cbn [bytes]. apply Hpk, (proj1 (placed_calls _ _ _ H2)).
      rewrite <- Hcall. clear - Hp Hh.
      assert (Hq : In bs (queued h)).
      { unfold started in Hp. apply in_flat_map in Hp. destruct Hp as (e & He & Hp).
        destruct e as [| |q|]; try contradiction. destruct Hp as [-> |[]].
        apply in_split in He. destruct He as (h1 & h2 & ->).
        destruct (Hh h1 (Started (Some bs)) h2 eq_refl) as (ws & Hw & Hhd & _).
        rewrite queued_app. apply in_or_app. left. unfold waiting in Hw. rewrite Hw. apply in_or_app. right.
        destruct ws; [discriminate|]. inversion Hhd. left. reflexivity. }
      unfold queued in Hq. apply in_flat_map in Hq. destruct Hq as (e & He & Hq).
      destruct e; try contradiction. destruct Hq as [-> |[]].
      apply in_flat_map. exists (Queued bs). split; [exact He|left; reflexivity]. }
    destruct (ticks_prefix c h Hh) as (rest & Hrest). unfold SpecTx.track in Hrest.
    assert (Hfn : map fst outs = firstn (length outs) (map fst (flat_map (on_track c) (None :: started h)))).
    { rewrite <- Ho, <- Hrest, map_app, firstn_app, map_length, Nat.sub_diag, firstn_O, app_nil_r.
      rewrite firstn_all2; [reflexivity|rewrite map_length; lia]. }
    set (f0 := r_fsm (rxs (st0 i))).
    assert (Hb : between f0) by (repeat split).
    assert (HI : Inv (l_heard listener0) f0) by (cbn; auto).
    assert (Hhb : half_bits_in (all_calls ts rs) = halves_of (firstn (length outs) (map fst (flat_map (on_track c) (None :: started h)))))
      by (rewrite (half_bits_in_receives _ _ Hdos), Hfn; reflexivity).
    assert (Hcr : snd (crun f0 (half_bits_in (all_calls ts rs))) = finished c (None :: started h) (length outs)).
    { rewrite Hhb. apply crun_track; [exact Hc| |exact Hb]. eapply Forall_impl; [|exact Hps].
      intros p (P1 & P2 & P3 & _). split; [exact P1|]. split; [exact P2|exact P3]. }
    assert (Hfi : fits f0 (half_bits_in (all_calls ts rs))) by (rewrite Hhb; apply fits_beginning; assumption).
    assert (Hlo : Forall (fun p => is_logon p = false) (finished c (None :: started h) (length outs))).
    { clear - Hps. revert Hps. generalize (None :: started h) as ps, (length outs) as n.
      induction ps as [|p ps IH]; intros n Hps; [constructor|]. inversion Hps as [|? ? P1 P2]; subst. cbn [finished].
      destruct (n <? _)%nat; [constructor|]. constructor; [apply P1|apply IH; exact P2]. }
    rewrite <- Hcr in Hlo. destruct (session_pure ts rs listener0 f0 HI Hnd Hro Hfi Hlo) as [Hu Hah].
    assert (Hi : Forall (fun t : list op * list (list op) => interrupting (snd t)) ts)
      by (eapply Forall_impl; [|exact Hw]; intros u; apply handlers_interrupting).
    split.
    - rewrite <- Hcr, <- Hah. pose proof Hrun as Hr. apply bind_inv in Hr. destruct Hr as ([] & s2 & e1 & e2 & G1 & G2 & ->).
      destruct (sound_new E m able Hk i s2 e1 G1) as [(HR & _) _].
      exact (proj2 (session_queue E ts listener0 s2 rs s e2 Hi HR G2)).
    - intros x Hra. destruct (torn_layout E m able Hk deaf ts i rs s es Hw Hrun Hu Hra) as (A & B & C & D & _). auto.
  Qed.
End Both.
