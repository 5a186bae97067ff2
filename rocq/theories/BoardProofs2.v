(** The decoder board of examples/stm32 keeps what is written *)
From Verif Require Import Prelude Address ZBits SpecCodec SpecTx TxProofs Tx RxState Rx CodecProofs CodecProofs2 RxLogic SpecRx
  RxBitProofs RxBitProofs2 RxBitProofs3 RxBitProofs4 RxBitProofs5 SpecExec SpecConf SpecCv SpecLogon SpecBidi SpecSafe SafeProofs2 Toy
  SpecLayout LayoutProofs4 LayoutProofs5 LayoutProofs6 SpecLayout2 LayoutProofs7 LayoutProofs8 ReplProofs ReplProofs3
  SpecStation StationProofs StationProofs2 StationProofs4 StationWitness SpecAlike AlikeProofs
  AudibleProofs SpecPace PaceProofs PaceProofs2 Stm32 SpecEdges EdgeProofs EdgeProofs2 Stm32Proofs ReadProofs2 SpecBoard CarryProofs.
Local Ltac Zify.zify_post_hook ::= Z.div_mod_to_equations.

(** ** Calls the board answers like an application with access to bits *)

Definition bytes_only (e : event) : Prop :=
  match e with
  | EReadCvBit _ _ _ _ | EWriteCvBit _ _ _ _ => False
  | EWriteCv a b _ => 0 <= a < 29 /\ (a = 0 -> b < 128) /\ 0 <= b < 256
  | _ => True
  end.
Lemma stm32_writes : agree stm32_env board like bytes_only.
Proof.
  constructor; cbn [stm32_env board careful e_readCv e_readCvByte e_readCvBit e_writeCv e_writeCvBit e_async e_hook e_rand e_now
    e_async_readable e_async_writable e_high_current e_east_west fst snd]; try reflexivity;
    try (intros; split; [match goal with H : like _ _ |- _ => rewrite (H a), u8_shown; reflexivity end|assumption]);
    try (intros; match goal with H : bytes_only _ |- _ => destruct H; fail end); try (intros; assumption); try (intros; split; [reflexivity|assumption]).
  - intros i j a b H (H1 & H2 & H3). assert (Ho : on_board a = true) by (unfold on_board; lia). rewrite Ho. cbn [fst snd].
    assert (Hb : shown (put j a b) a = b). { unfold shown, put, u8. rewrite !Z.eqb_refl. destruct (Z.eqb_spec a 0) as [->|N]; [rewrite Z.eqb_refl|]; lia. }
    rewrite Hb. split; [reflexivity|]. intros x. unfold like in H. specialize (H x). destruct (Z.eqb_spec x a) as [->|N].
    + rewrite Ho, Hb. unfold u8. lia.
    + rewrite H. unfold shown, put. destruct (Z.eqb_spec x 0) as [->|]; [destruct (Z.eqb_spec 0 a); [lia|reflexivity]|]. destruct (Z.eqb_spec x a); [lia|reflexivity].
Qed.

Definition of_bytes (x : seen) : Prop := match x with Access (Store _ v) => byte v | _ => True end.
Lemma able_bytes : forall es, Forall board_able (seen_in es) -> Forall of_bytes (seen_in es) -> Forall bytes_only es.
Proof.
  induction es as [|e es IH]; intros H Hb; [constructor|]. unfold seen_in in H, Hb. cbn [flat_map] in H, Hb. fold (seen_in es) in H, Hb.
  apply Forall_app in H, Hb. destruct H as [H1 H2], Hb as [B1 B2]. constructor; [|exact (IH H2 B2)].
  destruct e; try exact Logic.I; cbn in H1, B1; inversion H1 as [|? ? K _]; subst; cbn in K; try contradiction.
  inversion B1 as [|? ? K' _]; subst; cbn in K'. unfold byte in K'. cbn. tauto.
Qed.
Lemma orders_bytes : forall os mem, Forall order_ok os -> Forall of_bytes (snd (carry_out_all os mem)).
Proof.
  induction os as [|[n d] os IH]; intros [c last] H; [constructor|]. inversion H as [|? ? K1 K2]; subst. cbn [carry_out_all].
  assert (A : Forall of_bytes (snd (carry_out (n, d) (c, last)))).
  { unfold carry_out. destruct (negb _); [constructor|]. destruct (negb _); [|destruct (negb _ && _); [constructor|]]; cbn [snd]; apply Forall_forall; intros x Hx;
      apply in_map_iff in Hx; destruct Hx as (y & <- & Hy); [exact Logic.I|]. apply filter_In in Hy. destruct Hy as [Hy _].
    destruct K1 as [_ K1]. cbn [snd] in K1. destruct d; cbn [wanted] in Hy; try destruct (SpecLayout2.same last n _); cbn in Hy;
      repeat match goal with H : _ \/ _ |- _ => destruct H end; subst; try contradiction; try exact Logic.I. cbn in *. tauto. }
  destruct (carry_out (n, d) (c, last)) as [m1 x]. specialize (IH m1 K2). destruct (carry_out_all os m1) as [m2 y]. cbn [snd] in *. apply Forall_app; auto.
Qed.

Lemma memory_shown : eqf board_memory (shown board_cvs).
Proof.
  intros a. unfold board_memory, shown, board_cvs, on_board, stm32_cvs. destruct (Z.eqb_spec a 0) as [->|N]; [reflexivity|].
  destruct ((0 <=? a) && (a <? 29)) eqn:E; [|reflexivity].
  assert (K : Forall (fun v => u8 v = v) stm32_table) by (repeat constructor).
  symmetry. apply (proj1 (Forall_forall _ _) K). apply nth_In. cbn [length stm32_table]. lia.
Qed.

Theorem board_written : forall c os pss ks k0 k, config_ok c -> Forall order_ok os -> Forall2 packets_for os pss ->
  length ks = length os -> Forall (fun k => (782 < k)%nat) ks -> (783 < k)%nat ->
  let x := carry_out_all os (board_memory, None) in Forall board_able (snd x) ->
  exists xs tx, tx_run (TInit c :: repeat TTransmit k0 ++ flat_map calls (combine pss ks) ++ repeat TTransmit k) (tx_init_state 4)
                = Ok ((None, []) :: xs, tx) /\
  forall since ts dos, Forall2 (off 16) (captured since (intervals xs)) ts -> filter is_receive dos = map OReceive ts ->
    ~ In ODisable dos -> awake 16 c dos -> on_time dos ->
    exists s es, run stm32_env (OInit :: dos) (st0 stm32_cvs) = Ok (tt, s, es) /\ seen_in es = snd x /\
      forall a, 0 <= a < 29 -> Rx.app s a mod 256 = fst (fst x) a.
Proof.
  intros c os pss ks k0 k Hc Hos Hp Hlen Hks Hk x Hx. destruct (carry_all_ext os _ _ None memory_shown) as [E1 E2].
  fold x in E1, E2.
  destruct (wires_done board shown sensible (fun _ => 0) board_keeps board_short board_clock c os _ ks k0 k board_cvs
    ltac:(lia) Hc Hos Hp Hlen Hks Hk) as (xs & tx & Htx & Hall).
  { rewrite <- E1. eapply Forall_impl; [|exact Hx]. intros [e|a] H; [exact Logic.I|]. destruct a; try destruct H; try exact Logic.I; try discriminate. intros _. assumption. }
  exists xs, tx. split; [exact Htx|]. intros since ts dos Hts Hdos Hnd Haw Hon.
  destruct (Hall since ts dos Hts Hdos Hnd Haw Hon) as (s & es & Hrun & Hseen & Hm). rewrite <- E1 in Hseen.
  assert (Hr : Forall bytes_only es).
  { apply able_bytes; rewrite Hseen; [exact Hx|]. apply orders_bytes. exact Hos. }
  destruct (runs_alike _ _ stm32_env board like bytes_only stm32_writes _ _ _ _ _ board_like Hrun Hr) as (s' & Hrun' & _ & _ & HR).
  exists s', es. split; [exact Hrun'|]. split; [exact Hseen|]. intros a Ha. rewrite (E2 a), <- (Hm a), <- (HR a).
  unfold on_board. replace ((0 <=? a) && (a <? 29)) with true by lia. reflexivity.
Qed.
