(** examples/stm32: the LEDs of the decoder board show what those of the station show *)
From Verif Require Import Prelude Address ZBits SpecCodec SpecTx TxProofs Tx RxState Rx CodecProofs CodecProofs2 RxLogic SpecRx
  RxBitProofs RxBitProofs2 RxBitProofs3 RxBitProofs4 RxBitProofs5 SpecExec SpecConf SpecCv SpecLogon SpecBidi SpecSafe SafeProofs2 Toy
  SpecLayout LayoutProofs4 LayoutProofs5 LayoutProofs6 SpecLayout2 LayoutProofs7 LayoutProofs8 ReplProofs ReplProofs3
  SpecStation StationProofs StationProofs2 StationProofs4 StationWitness SpecAlike AlikeProofs
  AudibleProofs SpecPace PaceProofs PaceProofs2 Stm32 SpecEdges EdgeProofs EdgeProofs2.

(** ** An application with access to bits in its place *)

Definition board : Env (Z -> Z) :=
  Mk_env _ (e_readCv careful) (e_readCvByte careful) (e_readCvBit careful) (e_writeCv careful) (e_writeCvBit careful)
    (e_async careful) (e_hook careful) (fun m => (0, m)) (fun m => (0, m)) false false false false.

Lemma board_keeps : keeps_cvs sensible board shown.
Proof. destruct careful_keeps as (H & H2 & H3). split; [destruct H; constructor; try assumption; reflexivity|]. split; assumption. Qed.
Lemma board_short : short_cv1 board.
Proof. exact careful_short. Qed.
Lemma board_clock : clock board (fun _ => 0).
Proof. destruct careful_clock as (H1 & H2). split; try assumption. Qed.

(** Nothing written, no bits *)
Definition only_reads (e : event) : Prop :=
  match e with EReadCvBit _ _ _ _ | EWriteCvBit _ _ _ _ | EWriteCv _ _ _ => False | _ => True end.
Definition like (i j : Z -> Z) : Prop := forall a, u8 (if on_board a then i a else 0) = shown j a.

Lemma stm32_agrees : agree stm32_env board like only_reads.
Proof.
  constructor; cbn [stm32_env board careful e_readCv e_readCvByte e_readCvBit e_writeCv e_writeCvBit e_async e_hook e_rand e_now
    e_async_readable e_async_writable e_high_current e_east_west fst snd]; try reflexivity;
    intros; try (match goal with H : only_reads _ |- _ => destruct H; fail end);
    try (split; [|assumption]); try assumption; try reflexivity;
    match goal with H : like _ _ |- _ => rewrite (H a), u8_shown; reflexivity | _ => idtac end.
  all: match goal with H : _ \/ _ |- _ => destruct H; discriminate end.
Qed.

Definition board_cvs : Z -> Z := fun a => if on_board a then stm32_cvs a else 0.
Lemma board_like : like stm32_cvs board_cvs.
Proof.
  intros a. unfold shown, board_cvs. destruct (Z.eqb_spec a 0) as [->|H]; [reflexivity|].
  destruct (on_board a); reflexivity.
Qed.

(** ** The turns of the station *)

Definition turn_cmd (k : nat) : loco_cmd :=
  match Nat.modulo k 4 with
  | 0%nat => CSpeed126 170
  | 1%nat => CF4_F0 8
  | 2%nat => CSpeed126 128
  | _ => CF4_F0 0
  end.

Lemma turn_generated : forall k, fst (stm32_turn k) = generate (loco 3) (turn_cmd k).
Proof. intros k. unfold stm32_turn, turn_cmd. destruct (k mod 4)%nat as [|[|[|]]]; reflexivity. Qed.

Lemma turn_ok : forall k, order_ok (3, turn_cmd k).
Proof. intros k. split; cbn [fst snd]; [lia|]. unfold turn_cmd. destruct (k mod 4)%nat as [|[|[|]]]; cbn; unfold byte; lia. Qed.

Lemma turn_single : forall k, is_write (turn_cmd k) = false.
Proof. intros k. unfold turn_cmd. destruct (k mod 4)%nat as [|[|[|]]]; reflexivity. Qed.

Definition shown_leds (l : leds) (x : seen) : leds := match x with Told e => show l e | Access _ => l end.

Lemma turn_carried : forall k, exists xs, carry_out (3, turn_cmd k) (shown board_cvs, None) = ((shown board_cvs, None), xs) /\
  Forall (fun x => match x with Told _ => True | Access _ => False end) xs /\
  fold_left shown_leds xs (match k with O => (false, false) | S k' => snd (stm32_turn k') end) = snd (stm32_turn k).
Proof.
  intros k. 
  assert (K : forall l, exists xs, carry_out (3, turn_cmd k) (shown board_cvs, None) = ((shown board_cvs, None), xs) /\
    Forall (fun x => match x with Told _ => True | Access _ => False end) xs /\
    fold_left shown_leds xs l = match Nat.modulo k 4 with 0%nat => (true, snd l) | 1%nat => (fst l, true) | 2%nat => (false, snd l) | _ => (fst l, false) end).
  { intros l. unfold turn_cmd. destruct (k mod 4)%nat as [|[|[|]]]; eexists;
      (split; [unfold carry_out; cbn [on_cvs negb];
               match goal with |- (if ?b then _ else _) = _ => change b with false end; cbv iota; reflexivity|]);
      (split; [vm_compute; repeat constructor|vm_compute; destruct l; reflexivity]). }
  destruct (K (match k with O => (false, false) | S k' => snd (stm32_turn k') end)) as (xs & H1 & H2 & H3).
  exists xs. split; [exact H1|]. split; [exact H2|]. rewrite H3. unfold stm32_turn.
  destruct k as [|k']; [reflexivity|]. 
  assert (Hm : (S k' mod 4)%nat = match (k' mod 4)%nat with 3%nat => 0%nat | r => S r end).
  { pose proof (Nat.mod_upper_bound k' 4 ltac:(lia)). pose proof (Nat.div_mod k' 4 ltac:(lia)) as Hd.
    symmetry. destruct (k' mod 4)%nat as [|[|[|[|r]]]]; [..|lia].
    1-3: eapply (Nat.mod_unique _ _ (k' / 4)); lia.
    apply (Nat.mod_unique _ _ (S (k' / 4))); lia. }
  pose proof (Nat.mod_upper_bound k' 4 ltac:(lia)) as Hr. rewrite Hm.
  destruct (k' mod 4)%nat as [|[|[|[|]]]]; try lia; reflexivity.
Qed.

Lemma turns_carried : forall n, let x := carry_out_all (map (fun k => (3, turn_cmd k)) (seq 0 n)) (shown board_cvs, None) in
  Forall (fun x => match x with Told _ => True | Access _ => False end) (snd x) /\ fst x = (shown board_cvs, None) /\
  fold_left shown_leds (snd x) (false, false) = match n with O => (false, false) | S k => snd (stm32_turn k) end.
Proof.
  assert (Happ : forall a b mem, carry_out_all (a ++ b) mem =
    let '(m1, x) := carry_out_all a mem in let '(m2, y) := carry_out_all b m1 in (m2, x ++ y)).
  { induction a as [|o a IH]; intros b mem; cbn [List.app carry_out_all]; [destruct (carry_out_all b mem); reflexivity|].
    destruct (carry_out o mem) as [m1 x]. rewrite IH. destruct (carry_out_all a m1) as [m2 y].
    destruct (carry_out_all b m2). rewrite <- app_assoc. reflexivity. }
  induction n as [|n IH]; cbv zeta in *; [split; [constructor|split; reflexivity]|].
  rewrite seq_S, map_app, Happ. cbn [map Nat.add].
  match type of IH with context [snd ?X] => destruct X as [m1 x] end. cbn [fst snd] in IH.
  destruct IH as (I1 & -> & I3). cbn [carry_out_all]. destruct (turn_carried n) as (xs & -> & T2 & T3).
  cbn [fst snd]. rewrite app_nil_r. split; [apply Forall_app; auto|]. split; [reflexivity|].
  rewrite fold_left_app, I3. exact T3.
Qed.

Lemma leds_seen : forall es l, fold_left show es l = fold_left shown_leds (seen_in es) l.
Proof.
  induction es as [|e es IH]; intros l; [reflexivity|]. unfold seen_in. cbn [fold_left flat_map]. fold (seen_in es).
  rewrite fold_left_app, IH. destruct e; reflexivity.
Qed.

Lemma seen_reads : forall es, Forall (fun x => match x with Told _ => True | Access _ => False end) (seen_in es) -> Forall only_reads es.
Proof.
  induction es as [|e es IH]; intros H; [constructor|]. unfold seen_in in H. cbn [flat_map] in H. fold (seen_in es) in H.
  apply Forall_app in H. destruct H as [H1 H2]. constructor; [|exact (IH H2)].
  destruct e; try exact Logic.I; cbn in H1; inversion H1; contradiction.
Qed.

(** ** The boards *)

Theorem stm32_leds : forall n ps ks k0 k, map fst (map stm32_turn (seq 0 n)) = map Ok ps ->
  length ks = n -> Forall (fun k => (782 < k)%nat) ks -> (783 < k)%nat ->
  exists xs tx, tx_run (TInit stm32_config :: repeat TTransmit k0 ++ flat_map calls (combine (map (fun p => [p]) ps) ks) ++ repeat TTransmit k)
                  (tx_init_state 4) = Ok ((None, []) :: xs, tx) /\
  forall since ts dos, Forall2 (off 16) (captured since (intervals xs)) ts -> filter is_receive dos = map OReceive ts ->
    ~ In ODisable dos -> awake 16 stm32_config dos -> on_time dos ->
    exists s es, run stm32_env (OInit :: dos) (st0 stm32_cvs) = Ok (tt, s, es) /\
      fold_left show es (false, false) = match n with O => (false, false) | S j => snd (stm32_turn j) end.
Proof.
  intros n ps ks k0 k Hps Hlen Hks Hk.
  set (os := map (fun k => (3, turn_cmd k)) (seq 0 n)).
  assert (Hlo : length os = n) by (unfold os; rewrite map_length, seq_length; reflexivity).
  assert (Hos : Forall order_ok os).
  { unfold os. apply Forall_forall. intros o Ho. apply in_map_iff in Ho. destruct Ho as (j & <- & _). apply turn_ok. }
  assert (Hp : Forall2 packets_for os (map (fun p => [p]) ps)).
  { unfold os. revert ps Hps. generalize (seq 0 n) as js. induction js as [|j js IH]; intros [|p ps] H; try discriminate H; [constructor|].
    cbn [map] in *. constructor; [|apply IH; congruence]. exists p. cbn [fst snd]. rewrite <- turn_generated, turn_single.
    split; [congruence|reflexivity]. }
  destruct (turns_carried n) as (T1 & T2 & T3). fold os in T1, T2, T3.
  assert (Hc : config_ok stm32_config) by (repeat split; cbn; lia).
  destruct (wires_done board shown sensible (fun _ => 0) board_keeps board_short board_clock stm32_config os _ ks k0 k board_cvs
    ltac:(lia) Hc Hos Hp (eq_trans Hlen (eq_sym Hlo)) Hks Hk) as (xs & tx & Htx & Hall).
  { eapply Forall_impl; [|exact T1]. intros [e|a] H; [exact Logic.I|destruct H]. }
  exists xs, tx. split; [exact Htx|]. intros since ts dos Hts Hdos Hnd Haw Hon.
  destruct (Hall since ts dos Hts Hdos Hnd Haw Hon) as (s & es & Hrun & Hseen & _).
  assert (Hr : Forall only_reads es) by (apply seen_reads; rewrite Hseen; exact T1).
  destruct (runs_alike _ _ stm32_env board like only_reads stm32_agrees _ _ _ _ _ board_like Hrun Hr) as (s' & Hrun' & _).
  exists s', es. split; [exact Hrun'|]. rewrite leds_seen, Hseen. exact T3.
Qed.
