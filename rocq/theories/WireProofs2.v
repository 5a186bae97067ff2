(** Transmissions of decoders against the cutouts of a station *)
From Verif Require Import Prelude SpecCodec Tx SpecTx TxProofs StationProofs2 Wire SpecWire WireProofs RxState Rx SpecCv SpecBidi BidiProofs7 BidiProofs7 LineProofs2.
Local Ltac Zify.zify_post_hook ::= Z.div_mod_to_equations.

Lemma run_history : forall c ops xs tx, config_ok c -> Forall plain_op ops ->
  tx_run (TInit c :: ops) (tx_init_state 4) = Ok ((None, []) :: xs, tx) ->
  exists h, history_ok c h /\ ticks h = intervals xs /\ flat_map call_of h = ops.
Proof.
  intros c ops xs tx Hc Hops Hr. destruct (tx_history c ops Hc Hops) as (xs' & tx' & h & Htx' & Hcall & Hres & Hh).
  rewrite Htx' in Hr. injection Hr as -> ->. exists h. split; [exact Hh|]. split; [|exact Hcall].
  rewrite <- Hres, intervals_ticks. reflexivity.
Qed.

Lemma window1 : forall c ops xs tx a t b, config_ok c -> cfg_bidi c = true -> Forall plain_op ops ->
  tx_run (TInit c :: ops) (tx_init_state 4) = Ok ((None, []) :: xs, tx) ->
  call_times 0 (intervals xs) = a ++ (BiDiChannel1, t) :: b ->
  (exists a', a = a' ++ [(first_half c, t - 80); (TrackOutputs false false, t - 51); (BiDiStart, t - 51)]) /\
  agree b [(BiDiChannel2, t + 113); (BiDiEnd, t + 374); (first_half c, t + 391)].
Proof.
  intros c ops xs tx a t b Hc Hb Hops Hr H. destruct (run_history c ops xs tx Hc Hops Hr) as (h & Hh & Ht & _).
  rewrite <- Ht in H. exact (windows c h a t b Hb Hh H).
Qed.

Lemma airtime_lawful : forall lo hi d, lawful lo hi d -> 40 * Z.of_nat lo <= airtime baudrate d <= 40 * Z.of_nat hi.
Proof. intros lo hi d [H _]. unfold airtime, baudrate. lia. Qed.

Section Decoder.
  Context {I : Type}.
  Lemma on_air1 : forall (E : Env I) s u s' es late, reached E s -> biDiChannel1 E s = Ok (u, s', es) -> 0 <= late <= 17 ->
    forall d, In d (SpecBidi.sent es) -> 80 + late + airtime baudrate d <= 177.
  Proof.
    intros E s u s' es late Hr H Hl d Hd. destruct (sends1 E s Hr) as (s1 & es1 & H1 & Hf & _). rewrite H1 in H. injection H as _ _ <-.
    rewrite Forall_forall in Hf. specialize (airtime_lawful _ _ _ (Hf d Hd)). lia.
  Qed.
  Lemma on_air2 : forall (E : Env I) s u s' es late, reached E s -> biDiChannel2 E s = Ok (u, s', es) -> 0 <= late <= 21 ->
    forall d, In d (SpecBidi.sent es) -> 193 + late + airtime baudrate d <= 454.
  Proof.
    intros E s u s' es late Hr H Hl d Hd. destruct (sends2 E s u s' es Hr H) as (Hf & _).
    rewrite Forall_forall in Hf. specialize (airtime_lawful _ _ _ (Hf d Hd)). lia.
  Qed.
End Decoder.

(** ** Voltage *)

Lemma run_drift : forall c ops xs tx, config_ok c -> Forall plain_op ops ->
  tx_run (TInit c :: ops) (tx_init_state 4) = Ok ((None, []) :: xs, tx) ->
  29 * cutouts (intervals xs) <= polarity c * charge (false, false) (intervals xs) <= 29 * cutouts (intervals xs) + 114.
Proof.
  intros c ops xs tx Hc Hops Hr. destruct (run_history c ops xs tx Hc Hops Hr) as (h & Hh & <- & _). exact (drift c h Hc Hh).
Qed.

Lemma run_balanced : forall c ops xs tx, config_ok c -> cfg_bidi c = false -> Forall plain_op ops ->
  tx_run (TInit c :: ops) (tx_init_state 4) = Ok ((None, []) :: xs, tx) ->
  0 <= polarity c * charge (false, false) (intervals xs) <= 114.
Proof.
  intros c ops xs tx Hc Hb Hops Hr. destruct (run_history c ops xs tx Hc Hops Hr) as (h & Hh & <- & _). exact (balanced c h Hc Hb Hh).
Qed.

Lemma cutouts_pos : forall l, 0 <= cutouts l.
Proof. intros. unfold cutouts. lia. Qed.

Lemma crowded : forall c ps l rest, config_ok c -> cfg_bidi c = true -> Forall (fun p => p = None) ps ->
  l ++ rest = flat_map (on_track c) ps -> Z.of_nat (length l) <= Z.of_nat (length (on_track c None)) * (cutouts l + 1).
Proof.
  intros c ps l rest Hc Hb. revert l. induction ps as [|p ps IH]; intros l Hn H.
  - destruct l; [cbn; pose proof (cutouts_pos []); nia|discriminate H].
  - inversion Hn as [|? ? -> Hn']; subst. cbn [flat_map] in H. apply prefix_app in H. destruct H as [[r H]|(l' & -> & H)].
    + rewrite <- H, app_length. pose proof (cutouts_pos l). nia.
    + specialize (IH l' Hn' H). rewrite app_length, cutouts_app.
      destruct (on_track_whole c None (false, false) Hc) as [_ ->]. rewrite Hb. lia.
Qed.

Lemma drifts_away : forall c bound, config_ok c -> cfg_bidi c = true -> exists n xs tx,
  tx_run (TInit c :: repeat TTransmit n) (tx_init_state 4) = Ok ((None, []) :: xs, tx) /\
  bound < polarity c * charge (false, false) (intervals xs).
Proof.
  intros c bound Hc Hb. set (K := length (on_track c None)).
  exists (K * S (S (Z.to_nat bound)))%nat.
  assert (Hops : Forall plain_op (repeat TTransmit (K * S (S (Z.to_nat bound)))))
    by (apply Forall_forall; intros o Ho; apply repeat_spec in Ho; subst; exact I).
  destruct (tx_history c _ Hc Hops) as (xs & tx & h & Htx & Hcall & Hres & Hh).
  exists xs, tx. split; [exact Htx|].
  assert (Hd := run_drift c _ xs tx Hc Hops Htx). rewrite <- Hres, intervals_ticks in *.
  destruct (ticks_prefix c h Hh) as (rest & Hr).
  assert (Hq : forall e, In e h -> match e with Queued _ | Refused _ => False | _ => True end).
  { intros e He. destruct e; try exact I;
      assert (Hi : In (TBytes bs) (flat_map call_of h)) by (apply in_flat_map; eexists; split; [exact He|left; reflexivity]);
      rewrite Hcall in Hi; apply repeat_spec in Hi; discriminate Hi. }
  assert (Hq0 : queued h = []).
  { unfold queued. clear - Hq. induction h as [|e h IH]; [reflexivity|]. cbn [flat_map].
    rewrite IH by (intros e' He'; apply Hq; right; exact He'). specialize (Hq e (or_introl eq_refl)). destruct e; try reflexivity; contradiction. }
  assert (Hn : Forall (fun p => p = None) (None :: started h)).
  { constructor; [reflexivity|]. apply Forall_forall. intros [bs|] Hp; [|reflexivity]. exfalso.
    apply (started_queued c h bs Hh) in Hp. rewrite Hq0 in Hp. exact Hp. }
  assert (Hc1 := crowded c _ _ _ Hc Hb Hn Hr).
  assert (Hlen : length (ticks h) = (K * S (S (Z.to_nat bound)))%nat).
  { rewrite <- (repeat_length TTransmit (K * _)), <- Hcall. unfold ticks. clear - Hq. induction h as [|e h IH]; [reflexivity|].
    cbn [flat_map]. rewrite !app_length, IH by (intros e' He'; apply Hq; right; exact He'). specialize (Hq e (or_introl eq_refl)).
    destruct e; try contradiction; reflexivity. }
  rewrite Hlen in Hc1. fold K in Hc1. assert (HK : (0 < K)%nat) by (unfold K; destruct (on_track_head c None) as (t & r & ->); cbn; lia).
  rewrite Nat2Z.inj_mul in Hc1. assert (Z.of_nat (S (S (Z.to_nat bound))) <= cutouts (ticks h) + 1) by nia. lia.
Qed.
