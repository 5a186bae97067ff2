(** A command station and a decoder: nothing undefined happens, no packet is lost *)
From Verif Require Import Prelude Address ZBits SpecCodec SpecTx TxProofs Tx RxState Rx CodecProofs CodecProofs2 RxLogic SpecRx
  RxBitProofs RxBitProofs2 RxBitProofs3 RxBitProofs4 RxBitProofs5 SpecExec SpecConf SpecCv SpecLogon SpecBidi SpecSafe SafeProofs2
  SpecLayout LayoutProofs4 LayoutProofs5 LayoutProofs6 SpecLayout2 LayoutProofs8 ReplProofs SpecStation StationProofs.

(** ** The traffic is orderly *)

Lemma history_halves : forall c h, config_ok c -> history_ok c h -> Forall packet_ok (queued h) ->
  map fst (ticks h) = firstn (length (ticks h)) (map fst (flat_map (on_track c) (None :: started h))) /\
  Forall (fun p => packet_ok (bytes p)) (None :: started h).
Proof.
  intros c h Hc Hh Hpk. destruct (ticks_prefix c h Hh) as (rest & Hrest). unfold track in Hrest. split.
  - rewrite <- Hrest, map_app, firstn_app, map_length, Nat.sub_diag, firstn_O, app_nil_r.
    rewrite firstn_all2; [reflexivity|rewrite map_length; lia].
  - constructor; [exact idle_ok|]. apply Forall_forall. intros p Hp.
    destruct p as [bs|]; [|exact idle_ok]. cbn [bytes]. rewrite Forall_forall in Hpk. apply Hpk.
    exact (started_queued c h bs Hh Hp).
Qed.

Lemma finished_In : forall c ps n p, In p (finished c ps n) -> In p (map bytes ps).
Proof.
  intros c ps n p H. destruct (finished_prefix c ps n) as (r & Hr).
  assert (In p (finished c ps n ++ r)) as K by (apply in_or_app; left; exact H).
  rewrite Hr in K. exact K.
Qed.

Lemma station_orderly : forall (sent : list Z -> Prop) c h dos, config_ok c -> history_ok c h ->
  Forall packet_ok (queued h) -> Forall sent (queued h) -> sent [0xFF; 0; 0xFF] ->
  filter is_receive dos = map OReceive (map fst (ticks h)) -> ~ In ODisable dos -> never_full dos listener0 ->
  on_time dos -> orderly sent dos.
Proof.
  intros sent c h dos Hc Hh Hpk Hse Hid Hdos Hnd Hnf Hon.
  destruct (history_halves c h Hc Hh Hpk) as [Hfn Hok].
  set (f0 := reset_fsm (Mk_fsm Preamble 0 0 0 false [] false)).
  assert (Hb : between f0) by (repeat split).
  assert (Hfits : fits f0 (half_bits_in dos)).
  { rewrite (half_bits_in_receives _ _ Hdos), Hfn. apply fits_beginning; assumption. }
  assert (Hall : forall p, In p (arun f0 (half_bits_in dos)) -> sent p /\ is_logon p = false).
  { intros p Hp. apply arun_either in Hp. rewrite (half_bits_in_receives _ _ Hdos), Hfn in Hp.
    rewrite mrun_track, lrun_track in Hp by assumption. destruct Hp as [Hp|[]].
    apply finished_In in Hp. cbn [map] in Hp. destruct Hp as [<-|Hp].
    - split; [exact Hid|reflexivity].
    - apply in_map_iff in Hp. destruct Hp as (q & <- & Hq). destruct q as [bs|]; [|split; [exact Hid|reflexivity]].
      cbn [bytes]. apply (started_queued c h bs Hh) in Hq. rewrite Forall_forall in Hpk, Hse.
      split; [exact (Hse bs Hq)|]. exact (proj2 (proj2 (proj2 (Hpk bs Hq)))). }
  assert (HI0 : Inv (l_heard listener0) f0) by (unfold f0, Inv; cbn; auto).
  pose proof (listener_machine dos listener0 f0 HI0 Hnd Hnf Hfits) as HL.
  intros os1 o os2 He. cbv zeta. specialize (Hon os1 o os2 He).
  destruct (HL os1 o os2 He) as [H1 H2]. destruct o as [| | |t| |ds| | |i v]; try exact Logic.I; try exact Hon.
  split; [|split].
  - destruct (half_bit t) as [b|] eqn:Et; [|exact Logic.I]. exact (H1 t b eq_refl Et).
  - intros p Hp. exact (proj1 (Hall p (H2 p Hp))).
  - intros u1 t1 u2 p Hu Hp Hlg. exfalso.
    destruct (HL u1 (OReceive t1) (u2 ++ OReceive t :: os2)) as [_ H3].
    { rewrite He, Hu, <- app_assoc. reflexivity. }
    destruct (Hall p (H3 p Hp)) as [_ Hno]. congruence.
Qed.

(** ** Total *)

Section Total.
  Context {I : Type} (E : Env I) (time : I -> Z) (HE : short_cv1 E) (HC : clock E time).

  Lemma known_total : forall c h i dos, 0 <= time i -> config_ok c -> history_ok c h ->
    Forall packet_ok (queued h) -> Forall complete (queued h) ->
    filter is_receive dos = map OReceive (map fst (ticks h)) -> ~ In ODisable dos -> never_full dos listener0 ->
    on_time dos -> exists s es, run E (OInit :: dos) (st0 i) = Ok (tt, s, es).
  Proof.
    intros c h i dos Hi Hc Hh Hpk Hco Hdos Hnd Hnf Hon. apply (history E HE time HC i _ Hi).
    assert (Hid : complete [0xFF; 0; 0xFF]) by (exact (generated_complete _ gen_idle)).
    apply (station_orderly complete c h); try assumption.
    - intros [H|H]; [discriminate H|exact (Hnd H)].
    - intros [|a os1] os2 He; [cbn; lia|]. cbn [List.app] in He. injection He as <- He.
      exact (Hnf os1 os2 He).
    - intros [|a os1] o os2 He; cbn [List.app] in He; [injection He as <- _; exact Logic.I|].
      injection He as <- He. exact (Hon os1 o os2 He).
  Qed.

  Lemma queued_calls : forall h bs, In bs (queued h) -> In (TBytes bs) (flat_map call_of h).
  Proof.
    intros h bs Hq. unfold queued in Hq. apply in_flat_map in Hq. destruct Hq as (e & He & Hq).
    destruct e; try contradiction. destruct Hq as [-> |[]].
    apply in_flat_map. exists (Queued bs). split; [exact He|left; reflexivity].
  Qed.

  Theorem station_defined : forall c ops i, 0 <= time i -> config_ok c -> Forall plain_op ops ->
    (forall bs, In (TBytes bs) ops -> packet_ok bs /\ complete bs) ->
    exists xs tx, tx_run (TInit c :: ops) (tx_init_state 4) = Ok ((None, []) :: xs, tx) /\
    forall dos, filter is_receive dos = map OReceive (map fst (intervals xs)) -> ~ In ODisable dos ->
      never_full dos listener0 -> on_time dos -> exists s es, run E (OInit :: dos) (st0 i) = Ok (tt, s, es).
  Proof.
    intros c ops i Hi Hc Hops Hpk. destruct (tx_history c ops Hc Hops) as (xs & tx & h & Htx & Hcall & Hres & Hh).
    exists xs, tx. split; [exact Htx|]. intros dos Hdos Hnd Hnf Hon.
    rewrite <- Hres, intervals_ticks in Hdos.
    assert (Hq : forall bs, In bs (queued h) -> packet_ok bs /\ complete bs).
    { intros bs Hb. apply Hpk. rewrite <- Hcall. apply queued_calls. exact Hb. }
    apply (known_total c h); try assumption; apply Forall_forall; intros bs Hb; apply (Hq bs Hb).
  Qed.
End Total.

(** ** How often execute() has to be called *)

Lemma bytes_of_length : forall n bits bs, (length bits <= n)%nat -> bytes_of bits = (bs, true) -> (9 * length bs <= length bits)%nat.
Proof.
  induction n as [|n IH]; intros bits bs Hn H.
  - destruct bits; [|cbn [length] in Hn; lia]. discriminate H.
  - destruct bits as [|b7 [|b6 [|b5 [|b4 [|b3 [|b2 [|b1 [|b0 [|[] rest]]]]]]]]]; try discriminate H.
    + cbn [bytes_of] in H. injection H as <-. cbn [length]. lia.
    + cbn [bytes_of] in H. destruct (bytes_of rest) as [q stop] eqn:Eq. injection H as <- ->.
      specialize (IH rest q ltac:(cbn [length] in Hn; lia) Eq). cbn [length]. lia.
Qed.

Lemma samples_length : forall n body, (length body <= n)%nat -> (2 * length (samples body) <= length body)%nat.
Proof.
  induction n as [|n IH]; intros body Hn.
  - destruct body; [cbn; lia|cbn [length] in Hn; lia].
  - destruct body as [|x [|y body]]; [cbn; lia|cbn; lia|]. cbn [samples length] in *.
    specialize (IH body ltac:(lia)). lia.
Qed.

Lemma ones_length : forall hs, length hs = (ones hs + length (after_ones hs))%nat.
Proof. induction hs as [|[] hs IH]; cbn [ones after_ones length]; [reflexivity|rewrite IH|]; lia. Qed.

(** A packet takes at least 76 half bits *)
Lemma packet_length : forall hs bs, reading hs = Packet bs -> valid_packet bs = true -> (76 <= length hs)%nat.
Proof.
  intros hs bs H Hv. unfold reading in H. rewrite (ones_length hs).
  destruct (after_ones hs) as [|x [|y body]]; try discriminate H.
  { destruct (ones hs <? 20)%nat; discriminate H. }
  destruct (Nat.ltb_spec (ones hs) 20) as [|Ho]; [discriminate H|].
  destruct (bytes_of (samples body)) as [q []] eqn:Eb; [|discriminate H].
  assert (q = bs) as -> by congruence. unfold valid_packet in Hv. apply andb_prop in Hv. destruct Hv as [_ Hv].
  apply Nat.leb_le in Hv. pose proof (bytes_of_length _ _ _ (le_n _) Eb). pose proof (samples_length _ body (le_n _)).
  cbn [length]. lia.
Qed.

Definition receives (os : list op) : nat := length (filter is_receive os).

Lemma receives_snoc : forall b o, receives (b ++ [o]) = (receives b + if is_receive o then 1 else 0)%nat.
Proof.
  intros b o. unfold receives. rewrite filter_app, app_length. cbn [filter]. destruct (is_receive o); cbn [length]; lia.
Qed.

Definition pace (os : list op) (l : listener) : Prop :=
  (l_fresh l = true -> l_heard l = []) /\
  (l_queue l = [] \/ exists p a b, l_queue l = [p] /\ os = a ++ b /\ ~ In OExecute b /\ (length (l_heard l) <= receives b)%nat).

Lemma pace_step : forall os l o, pace os l ->
  (forall a b, os = a ++ b -> is_receive o = true -> (75 <= receives b)%nat -> In OExecute b) ->
  pace (os ++ [o]) (listen o l).
Proof.
  intros os l o [Hfr Hq] Hex.
  assert (Hother : forall l', l_queue l' = l_queue l -> (length (l_heard l') <= length (l_heard l))%nat ->
    (l_fresh l' = true -> l_heard l' = []) -> o <> OExecute -> pace (os ++ [o]) l').
  { intros l' E1 E2 E3 Ho. split; [exact E3|]. rewrite E1. destruct Hq as [Hq|(p & a & b & Hp & -> & Hb & Hl)]; [left; exact Hq|].
    right. exists p, a, (b ++ [o]). split; [exact Hp|]. split; [rewrite app_assoc; reflexivity|].
    split. { intros Hi. apply in_app_or in Hi. destruct Hi as [Hi|[Hi|[]]]; auto. }
    rewrite receives_snoc. lia. }
  destruct o as [| | |t| |ds| | |i v]; cbn [listen]; try (apply Hother; [reflexivity|cbn; lia|exact Hfr|discriminate]).
  - destruct (l_on l); [|apply Hother; [reflexivity|lia|exact Hfr|discriminate]].
    apply Hother; [reflexivity|cbn; lia|reflexivity|discriminate].
  - destruct (half_bit t) as [b|].
    2: { apply Hother; [reflexivity|cbn; lia|cbn; discriminate|discriminate]. }
    assert (Hlong : forall l', l_queue l' = l_queue l -> l_fresh l' = false ->
      (length (l_heard l') <= S (length (l_heard l)))%nat -> pace (os ++ [OReceive t]) l').
    { intros l' E1 E2 E3. split; [rewrite E2; discriminate|]. rewrite E1.
      destruct Hq as [Hq|(p & a & b0 & Hp & -> & Hb & Hl)]; [left; exact Hq|].
      right. exists p, a, (b0 ++ [OReceive t]). split; [exact Hp|]. split; [rewrite app_assoc; reflexivity|].
      split. { intros Hi. apply in_app_or in Hi. destruct Hi as [Hi|[Hi|[]]]; [auto|discriminate]. }
      rewrite receives_snoc. cbn [is_receive]. lia. }
    unfold hear. cbv zeta. destruct (looked_at _ && _); [apply Hlong; cbn; auto; lia|].
    destruct (reading (l_heard l ++ [b])) as [| |bs] eqn:Er.
    + apply Hlong; cbn [l_queue l_fresh l_heard]; auto. rewrite app_length. cbn [length]. lia.
    + apply Hlong; cbn; auto; lia.
    + destruct (valid_packet bs) eqn:Ev; [|apply Hlong; cbn; auto; lia].
      destruct (is_logon bs).
      { split; [reflexivity|]. cbn [l_queue l_heard].
        destruct Hq as [Hq|(p & a & b0 & Hp & -> & Hb & Hl)]; [left; exact Hq|].
        right. exists p, a, (b0 ++ [OReceive t]). split; [exact Hp|]. split; [rewrite app_assoc; reflexivity|].
        split. { intros Hi. apply in_app_or in Hi. destruct Hi as [Hi|[Hi|[]]]; [auto|discriminate]. }
        cbn [length]. lia. }
      split; [reflexivity|]. cbn [l_queue l_heard].
      destruct Hq as [Hq|(p & a & b0 & Hp & -> & Hb & Hl)].
      * right. exists bs, (os ++ [OReceive t]), []. rewrite Hq, app_nil_r. cbn [List.app length]. auto.
      * exfalso. pose proof (packet_length _ _ Er Ev) as Hlen. rewrite app_length in Hlen. cbn [length] in Hlen.
        apply Hb. apply (Hex a b0 eq_refl eq_refl). lia.
  - destruct (l_fresh l) eqn:Ef.
    + split; [rewrite Ef; exact Hfr|]. destruct Hq as [Hq|(p & a & b & Hp & -> & Hb & Hl)]; [left; exact Hq|].
      right. exists p, (a ++ b ++ [OExecute]), []. rewrite (Hfr eq_refl). split; [exact Hp|].
      split; [rewrite app_nil_r, app_assoc; reflexivity|]. auto.
    + split; [discriminate|]. cbn [l_queue]. left. destruct Hq as [->|(p & a & b & -> & _)]; reflexivity.
Qed.

Lemma pace_run : forall os, executes_every 76 os -> pace os (listen_all os listener0).
Proof.
  induction os as [|o os IH] using rev_ind; intros He.
  - split; [reflexivity|]. left. reflexivity.
  - unfold listen_all. rewrite fold_left_app. cbn [fold_left]. apply pace_step.
    + apply IH. intros a b c -> Hb. apply (He a b (c ++ [o])); [rewrite <- !app_assoc; reflexivity|exact Hb].
    + intros a b -> Ho Hb.
      assert (Hin : In OExecute (b ++ [o])).
      { apply (He a (b ++ [o]) []); [rewrite app_nil_r, app_assoc; reflexivity|].
        fold (receives (b ++ [o])). rewrite receives_snoc, Ho. lia. }
      apply in_app_or in Hin. destruct Hin as [Hin|[Hin|[]]]; [exact Hin|]. subst o. discriminate Ho.
Qed.

Theorem prompt_enough : forall os, executes_every 76 os -> never_full os listener0 /\
  (length (l_queue (listen_all os listener0)) <= 1)%nat.
Proof.
  intros os He.
  assert (K : forall os1, executes_every 76 os1 -> (length (l_queue (listen_all os1 listener0)) <= 1)%nat).
  { intros os1 H1. destruct (pace_run os1 H1) as [_ [->|(p & a & b & -> & _)]]; cbn [length]; lia. }
  split; [|apply K; exact He]. intros os1 os2 ->.
  assert (executes_every 76 os1) as H1.
  { intros a b c -> Hb. apply (He a b (c ++ os2)); [rewrite <- !app_assoc; reflexivity|exact Hb]. }
  specialize (K os1 H1). lia.
Qed.
