From Verif Require Import Prelude Address ZBits SpecCodec SpecTx TxProofs Tx RxState Rx CodecProofs CodecProofs2 RxLogic SpecRx
  RxBitProofs RxBitProofs2 RxBitProofs3 RxBitProofs4 RxBitProofs5 SpecExec SpecConf SpecCv SpecLogon SpecBidi SpecSafe SafeProofs2 Toy
  SpecLayout LayoutProofs4 LayoutProofs5 LayoutProofs6 SpecLayout2 LayoutProofs7 LayoutProofs8 ReplProofs ReplProofs3
  SpecStation StationProofs StationProofs2 StationProofs4 StationWitness SpecAlike AlikeProofs
  AudibleProofs SpecPace PaceProofs PaceProofs2 Stm32 SpecEdges EdgeProofs EdgeProofs2 Stm32Proofs ReadProofs2 SpecBoard.
Local Ltac Zify.zify_post_hook ::= Z.div_mod_to_equations.

Definition quiet (x : seen) : Prop := match x with Told _ => True | Access (Check _ _) => True | Access _ => False end.

Lemma quiet_reads : forall es, Forall quiet (seen_in es) -> Forall only_reads es.
Proof.
  induction es as [|e es IH]; intros H; [constructor|]. unfold seen_in in H. cbn [flat_map] in H. fold (seen_in es) in H.
  apply Forall_app in H. destruct H as [H1 H2]. constructor; [|exact (IH H2)].
  destruct e; try exact Logic.I; cbn in H1; inversion H1; contradiction.
Qed.

Lemma board_own : own_address (shown board_cvs) = Addr 3 ATShort false.
Proof. vm_compute. reflexivity. Qed.
Lemma board_consist : consist_address (shown board_cvs) = Addr 0 ATLong false.
Proof. vm_compute. reflexivity. Qed.
Lemma board_28 : f0_exception (switches (shown board_cvs)) = false.
Proof. vm_compute. reflexivity. Qed.

Lemma board_answers : forall n, answers (shown board_cvs) n = (n =? 0) || (n =? 3).
Proof. intros n. unfold answers, has_number. rewrite board_own, board_consist. cbn [atyp aval]. lia. Qed.

Lemma speed_lit : forall steps k, 0 <= k -> 1 < steps -> (speed255 steps k =? 0) = (k =? 0).
Proof.
  intros steps k Hk Hs. unfold speed255. destruct (k =? 0) eqn:E; [reflexivity|].
  destruct (steps =? 126) eqn:Es; [lia|]. assert (0 <= 253 * (k - 1) / (steps - 1)) by (apply Z.div_pos; lia). lia.
Qed.

Lemma land8 : forall s, (Z.land s 8 =? 0) = negb (bit_of s 3).
Proof.
  intros s. assert (Hb : bit_of s 3 = Z.testbit s 3) by (unfold bit_of; rewrite Z.testbit_odd, Z.shiftr_div_pow2 by lia; reflexivity).
  assert (Hl : Z.land s 8 = if bit_of s 3 then 8 else 0); [|rewrite Hl; destruct (bit_of s 3); reflexivity].
  rewrite Hb. apply Z.bits_inj'. intros j Hj. rewrite Z.land_spec. change 8 with (2 ^ 3). rewrite Z.pow2_bits_eqb by lia.
  destruct (Z.eqb_spec 3 j) as [<-|Hj3].
  - rewrite andb_true_r. destruct (Z.testbit s 3); reflexivity.
  - rewrite andb_false_r. destruct (Z.testbit s 3); rewrite ?Z.pow2_bits_eqb, ?Z.bits_0 by lia; [|reflexivity]. symmetry. apply Z.eqb_neq. exact Hj3.
Qed.

Lemma show_f : forall l n f k b, show l (functions n f k b) =
  if Z.land ((2 ^ k - 1) * 2 ^ f) 8 =? 0 then l else (fst l, negb (Z.land (b * 2 ^ f) 8 =? 0)).
Proof. reflexivity. Qed.

Lemma speed_lamp : forall ad n s l, byte s -> fold_left show (speed126_calls ad n s) l = (negb (s mod 128 =? 0), snd l).
Proof.
  intros ad n s l Hs. unfold speed126_calls. destruct (Z.eqb_spec (s mod 128) 1) as [E|E]; [rewrite E; reflexivity|].
  unfold drive. cbn [fold_left show]. rewrite speed_lit by (destruct (s mod 128 =? 0) eqn:?; lia).
  destruct (Z.eqb_spec (s mod 128) 0) as [E0|E0]; [reflexivity|]. replace (s mod 128 - 1 =? 0) with false by lia. reflexivity.
Qed.

Lemma told_lamps : forall n d l, cmd_ok d -> simple d -> n = 0 \/ n = 3 ->
  fold_left show (told (shown board_cvs) n d) l = lamps (n, d) l.
Proof.
  intros n d l Hd Hs Hn. unfold lamps. cbn [fst snd]. replace (negb ((n =? 0) || (n =? 3))) with false by lia.
  destruct d as [s|s f more|s|s| | | | | | | | | | ]; cbn [told cmd_ok simple] in *; try contradiction; try reflexivity.
  - apply speed_lamp. exact Hd.
  - destruct Hd as (H1 & _). rewrite fold_left_app, speed_lamp by exact H1. f_equal.
    assert (Hc : forall n x l0, In x [8; 16] -> forall b, show l0 (functions n x 8 b) = l0).
    { intros n0 x l0 [<-|[<-|[]]] b; reflexivity. }
    assert (Hf : show l (functions n 0 8 f) = (fst l, bit_of f 3)).
    { rewrite show_f. change (Z.land ((2 ^ 8 - 1) * 2 ^ 0) 8 =? 0) with false. cbv iota.
      change (2 ^ 0) with 1. rewrite Z.mul_1_r, land8, negb_involutive. reflexivity. }
    destruct more as [|f1 [|f2 [|f3 r]]]; cbn [length] in Hs; try lia; cbn [combined]; cbn [Z.add Pos.add Pos.succ Z.eqb Pos.eqb andb fold_left];
      rewrite Hf, ?(Hc n 8), ?(Hc n 16) by (cbn; auto); reflexivity.
  - rewrite board_28. unfold speed28_calls. replace ((64 + s) mod 16) with (s mod 16) by lia.
    destruct (Z.eqb_spec (s mod 16) 1) as [E|E]; [rewrite E; reflexivity|]. unfold drive. cbn [fold_left show].
    rewrite speed_lit by (destruct (s mod 16 =? 0) eqn:?; lia).
    destruct (Z.eqb_spec (s mod 16) 0) as [E0|E0]; [reflexivity|].
    match goal with |- (negb (?x =? 0), _) = _ => replace (x =? 0) with false by lia end. reflexivity.
  - rewrite board_28. cbn [fold_left]. rewrite show_f. change (Z.land ((2 ^ 5 - 1) * 2 ^ 0) 8 =? 0) with false. cbv iota.
    change (2 ^ 0) with 1. rewrite Z.mul_1_r, land8, negb_involutive. reflexivity.
Qed.

Lemma told_seen : forall es l, fold_left shown_leds (map Told es) l = fold_left show es l.
Proof. induction es as [|e es IH]; intros l; [reflexivity|]. cbn [map fold_left shown_leds]. apply IH. Qed.

Lemma order_lamps : forall o last l, order_ok o -> simple_for3 o -> let x := carry_out o (shown board_cvs, last) in
  fst (fst x) = shown board_cvs /\ Forall quiet (snd x) /\ fold_left shown_leds (snd x) l = lamps o l.
Proof.
  intros [n d] last l [Hn Hd] Hs. unfold simple_for3 in Hs. cbn [fst snd] in *. cbv zeta. unfold carry_out. rewrite board_answers.
  destruct ((n =? 0) || (n =? 3)) eqn:En; cbn [negb].
  2: { cbn [fst snd fold_left]. split; [reflexivity|]. split; [constructor|]. unfold lamps. cbn [fst]. rewrite En. reflexivity. }
  assert (Hn' : n = 0 \/ n = 3) by lia. specialize (Hs Hn').
  destruct (on_cvs d) eqn:Ed; cbn [negb].
  2: { cbn [fst snd]. split; [reflexivity|]. split.
       - apply Forall_forall. intros x Hx. apply in_map_iff in Hx. destruct Hx as (e & <- & _). exact Logic.I.
       - rewrite told_seen. apply told_lamps; assumption. }
  destruct d; try discriminate Ed; cbn [simple] in Hs; try contradiction. rewrite board_consist. cbn [aval].
  replace (negb (n =? 0) && (n =? 0)) with false by (destruct (n =? 0); reflexivity).
  cbn [wanted]. replace (filter (permitted (cvs_locked (switches (shown board_cvs)))) [Check cv b]) with [Check cv b].
  2: { cbn [filter]. replace (cvs_locked (switches (shown board_cvs))) with false by (vm_compute; reflexivity). reflexivity. }
  cbn [fst snd fold_left after map shown_leds]. split; [reflexivity|]. split; [repeat constructor|]. unfold lamps. cbn [fst snd].
  destruct (negb _); reflexivity.
Qed.

Lemma orders_lamps : forall os last l, Forall order_ok os -> Forall simple_for3 os -> let x := carry_out_all os (shown board_cvs, last) in
  Forall quiet (snd x) /\ fold_left shown_leds (snd x) l = fold_left (fun l o => lamps o l) os l.
Proof.
  induction os as [|o os IH]; intros last l Ho Hs; cbv zeta; [split; [constructor|reflexivity]|]. cbn [carry_out_all fold_left].
  destruct (order_lamps o last l (Forall_inv Ho) (Forall_inv Hs)) as (H1 & H2 & H3).
  destruct (carry_out o (shown board_cvs, last)) as [[c1 l1] x]. cbn [fst snd] in *. subst c1.
  destruct (IH l1 (lamps o l) (Forall_inv_tail Ho) (Forall_inv_tail Hs)) as (K1 & K2).
  destruct (carry_out_all os (shown board_cvs, l1)) as [m2 y]. cbn [snd] in *. split; [apply Forall_app; auto|].
  rewrite fold_left_app, H3. exact K2.
Qed.

Theorem board_lamps : forall c os pss ks k0 k, config_ok c -> Forall order_ok os -> Forall2 packets_for os pss -> Forall simple_for3 os ->
  length ks = length os -> Forall (fun k => (782 < k)%nat) ks -> (783 < k)%nat ->
  exists xs tx, tx_run (TInit c :: repeat TTransmit k0 ++ flat_map calls (combine pss ks) ++ repeat TTransmit k) (tx_init_state 4)
                = Ok ((None, []) :: xs, tx) /\
  forall since ts dos, Forall2 (off 16) (captured since (intervals xs)) ts -> filter is_receive dos = map OReceive ts ->
    ~ In ODisable dos -> awake 16 c dos -> on_time dos ->
    exists s es, run stm32_env (OInit :: dos) (st0 stm32_cvs) = Ok (tt, s, es) /\
      fold_left show es (false, false) = fold_left (fun l o => lamps o l) os (false, false).
Proof.
  intros c os pss ks k0 k Hc Hos Hp Hsi Hlen Hks Hk.
  destruct (orders_lamps os None (false, false) Hos Hsi) as (T1 & T3).
  destruct (wires_done board shown sensible (fun _ => 0) board_keeps board_short board_clock c os _ ks k0 k board_cvs
    ltac:(lia) Hc Hos Hp Hlen Hks Hk) as (xs & tx & Htx & Hall).
  { eapply Forall_impl; [|exact T1]. intros [e|a] H; [exact Logic.I|]. destruct a; try destruct H. discriminate. }
  exists xs, tx. split; [exact Htx|]. intros since ts dos Hts Hdos Hnd Haw Hon.
  destruct (Hall since ts dos Hts Hdos Hnd Haw Hon) as (s & es & Hrun & Hseen & _).
  assert (Hr : Forall only_reads es) by (apply quiet_reads; rewrite Hseen; exact T1).
  destruct (runs_alike _ _ stm32_env board like only_reads stm32_agrees _ _ _ _ _ board_like Hrun Hr) as (s' & Hrun' & _).
  exists s', es. split; [exact Hrun'|]. rewrite leds_seen, Hseen. exact T3.
Qed.
