(** Sessions of the example examples/repl *)
From Verif Require Import Prelude Address Packets ZBits SpecCodec SpecTx TxProofs Tx CodecProofs CodecProofs2 RxState Rx RxLogic SpecRx
  RxBitProofs RxBitProofs2 RxBitProofs3 RxBitProofs4 RxBitProofs5 SpecExec SpecConf SpecCv
  SpecLayout LayoutProofs LayoutProofs2 LayoutProofs3 LayoutProofs4 LayoutProofs5 LayoutProofs6 SpecLayout2 LayoutProofs7
  LayoutProofs8 Repl SpecRepl ReplProofs.
Local Ltac Zify.zify_post_hook ::= Z.div_mod_to_equations.

(** ** Typed orders *)

Fixpoint address_after (n : Z) (os : list rstep) : Z :=
  match os with
  | [] => n
  | RType (RAddress a) :: r => address_after a r
  | _ :: r => address_after n r
  end.

Lemma orders_typed_app : forall a b n, orders_typed n (a ++ b) = orders_typed n a ++ orders_typed (address_after n a) b.
Proof.
  induction a as [|o a IH]; intros b n; [reflexivity|]. cbn [List.app orders_typed address_after].
  destruct o as [| | |c]; try apply IH. destruct c; rewrite IH, app_assoc; reflexivity.
Qed.

Lemma address_after_app : forall a b n, address_after n (a ++ b) = address_after (address_after n a) b.
Proof.
  induction a as [|o a IH]; intros b n; [reflexivity|]. cbn [List.app address_after].
  destruct o as [| | |[]]; apply IH.
Qed.

Lemma meant_ok : forall c n, documented c -> 0 <= n <= 127 -> Forall order_ok (meant c n).
Proof.
  intros c n Hd Hn. destruct c; cbn [meant documented] in *; try (apply Forall_nil);
    (apply Forall_cons; [|apply Forall_nil]); split; cbn [fst snd cmd_ok]; unfold byte; try lia.
  destruct dir; cbn [Z.b2z]; lia.
Qed.

Lemma typed_ok : forall os n, every_command documented os -> every_command short_address os -> 0 <= n <= 127 ->
  Forall order_ok (orders_typed n os) /\ 0 <= address_after n os <= 127.
Proof.
  induction os as [|o os IH]; intros n Hd Hs Hn; [split; [constructor|exact Hn]|].
  assert (Hd' : every_command documented os) by (intros c Hc; apply Hd; right; exact Hc).
  assert (Hs' : every_command short_address os) by (intros c Hc; apply Hs; right; exact Hc).
  cbn [orders_typed address_after]. destruct o as [| | |c]; try (apply IH; assumption).
  specialize (Hd c (or_introl eq_refl)). specialize (Hs c (or_introl eq_refl)).
  assert (Hn' : 0 <= match c with RAddress a => a | _ => n end <= 127).
  { destruct c; try exact Hn. cbn [documented short_address] in *. lia. }
  destruct (IH _ Hd' Hs' Hn') as [H1 H2]. split.
  - apply Forall_app. split; [apply meant_ok; assumption|exact H1].
  - destruct c; exact H2.
Qed.

Lemma meant_packets : forall c n ps, documented c -> 0 <= n <= 127 -> repl_packets (Addr n ATShort false) c = Ok ps ->
  exists pss, Forall2 packets_for (meant c n) pss /\ ps = concat pss.
Proof.
  intros c n ps Hd Hn H.
  assert (Hl : loco n = Addr n ATShort false) by (unfold loco; destruct (Z.leb_spec n 127); [reflexivity|lia]).
  assert (Hf85 : forall s, make_function_group_f8_f5_packet (Addr n ATShort false) s =
                 make_function_group_f8_f5_packet (Addr n ATShort false) (s mod 16)).
  { intros s. unfold make_function_group_f8_f5_packet.
    replace (Z.land (s mod 16) 0xF) with (Z.land s 0xF); [reflexivity|].
    change 0xF with (Z.ones 4). rewrite !Z.land_ones by lia. change (2 ^ 4) with 16. rewrite Z.mod_mod by lia. reflexivity. }
  assert (Hsp : forall dir s, 0 <= s <= 127 -> u8 (Z.lor (Z.shiftl (Z.b2z dir) 7) s) = 128 * Z.b2z dir + s).
  { intros dir s Hs. assert (Hor : Z.lor (Z.shiftl (Z.b2z dir) 7) s = 128 * Z.b2z dir + s).
    { rewrite Z.shiftl_mul_pow2 by lia.
      assert (Hb : Z.land (Z.b2z dir * 2 ^ 7) s = 0).
      { apply Z.bits_inj'. intros j Hj. rewrite Z.land_spec, Z.bits_0.
        destruct (Z_lt_le_dec j 7).
        - rewrite Z.mul_pow2_bits_low by lia. reflexivity.
        - replace s with (s mod 2 ^ 7) by (apply Z.mod_small; lia). rewrite Z.mod_pow2_bits_high by lia. apply andb_false_r. }
      rewrite <- Z.lxor_lor by exact Hb. rewrite <- Z.add_nocarry_lxor by exact Hb. destruct dir; cbn [Z.b2z]; lia. }
    rewrite Hor. unfold u8. destruct dir; cbn [Z.b2z]; lia. }
  destruct c; cbn [repl_packets meant] in *; cbn [documented] in Hd;
    try (apply Ok_inj in H; subst ps; exists []; split; [constructor|reflexivity]);
    match type of H with rbind ?m _ = _ => destruct m as [p|] eqn:E; [|discriminate] end;
    cbn [rbind] in H; apply Ok_inj in H; subst ps;
    (eexists [_]; split; [constructor; [|constructor]; exists p; cbn [fst snd generate is_write]; rewrite Hl; split; [|reflexivity]|reflexivity]);
    try exact E.
  - rewrite Hsp in E by lia. exact E.
  - rewrite <- Hf85. exact E.
Qed.

(** ** Station *)

Lemma station_bytes : forall c h a ws s bs s', R s a -> HI c h a ws -> (length bs <= 18)%nat -> tx_bytes bs s = Ok s' ->
  exists a' ws', R s' a' /\ HI c (h ++ [if (tx_size s =? 3)%nat then Refused bs else Queued bs]) a' ws'.
Proof.
  intros c h a ws s bs s' HR HH Hl Ht.
  pose proof (sim_step (TBytes bs) s a HR) as Hs. cbn [tx_step atx_step] in Hs. rewrite Ht in Hs. cbn [rbind] in Hs.
  assert (Hq : length (a_queue a) = tx_size s).
  { rewrite (R_queue _ _ HR). unfold ring_queue. rewrite map_length, seq_length. reflexivity. }
  assert (Hw : length ws = tx_size s) by (rewrite <- Hq, (HI_queue _ _ _ _ HH), map_length; reflexivity).
  rewrite Hq in Hs. destruct HH as [H1 H2 H3 H4 H5 H6]. destruct (tx_size s =? 3)%nat eqn:E3.
  - apply Nat.eqb_eq in E3. cbn [sim] in Hs. exists a, ws. split; [apply Hs|].
    split; try assumption.
    + unfold waiting. rewrite queued_app, sent_app. cbn. rewrite !app_nil_r. exact H2.
    + rewrite ticks_app, track_app. cbn. rewrite !app_nil_r. exact H5.
    + apply history_snoc; [assumption|]. exists ws. split; [assumption|]. congruence.
  - apply Nat.eqb_neq in E3. replace (length bs <=? 18)%nat with true in Hs by (symmetry; apply Nat.leb_le; exact Hl).
    cbn [sim] in Hs. eexists _, (ws ++ [bs]). split; [apply Hs|].
    split; cbn [a_cfg a_queue]; try assumption.
    + unfold waiting. rewrite queued_app, sent_app. cbn. rewrite app_nil_r, app_assoc. f_equal. exact H2.
    + rewrite H3, map_app, H1. reflexivity.
    + rewrite app_length. cbn. lia.
    + rewrite ticks_app, track_app. cbn. rewrite !app_nil_r. exact H5.
    + apply history_snoc; [assumption|]. exists ws. split; [assumption|]. lia.
Qed.

Lemma station_transmit : forall c h a ws s t s' ev, R s a -> HI c h a ws -> transmit s = Ok (t, s', ev) ->
  exists a' ws' h', R s' a' /\ HI c (h ++ h') a' ws' /\ queued h' = [] /\ ticks h' = [(t, ev)].
Proof.
  intros c h a ws s t s' ev HR HH Ht.
  pose proof (sim_step TTransmit s a HR) as Hs. cbn [tx_step] in Hs. rewrite Ht in Hs. cbn [rbind] in Hs.
  destruct (HI_step c h a ws TTransmit HH Logic.I) as (x & a' & h' & ws' & E & Er & Ec & H'). rewrite E in Hs.
  destruct Hs as [<- HR']. exists a', ws', h'. split; [exact HR'|]. split; [exact H'|]. clear - Er Ec. split.
  - destruct (queued h') as [|q r] eqn:Eq; [reflexivity|exfalso].
    assert (Hin : In q (queued h')) by (rewrite Eq; left; reflexivity).
    unfold queued in Hin. apply in_flat_map in Hin. destruct Hin as (e & He & Hq). destruct e; try contradiction.
    assert (Hin : In (TBytes bs) (flat_map call_of h')) by (apply in_flat_map; exists (Queued bs); split; [exact He|left; reflexivity]).
    rewrite Ec in Hin. destruct Hin as [|[]]. discriminate.
  - assert (Hn : forall h, intervals (flat_map result_of h) = ticks h) by (intros; apply intervals_ticks).
    rewrite <- Hn, Er. reflexivity.
Qed.

(** ** Decoder *)

Lemma decoder_call : forall (A : Type) (f : M (I := Z -> Z) A) s a s' es, call_decoder f s = Done (a, s', es) -> f s = Ok (a, s', es).
Proof.
  intros A f s a s' es H. unfold call_decoder, rdo, defined in H. destruct (f s) as [[[a1 s1] e1]|]; [|discriminate].
  destruct (existsb outside e1); congruence.
Qed.

Lemma run_then : forall dos i s es o b s' e', run repl_env (OInit :: dos) (st0 i) = Ok (tt, s, es) ->
  step repl_env o s = Ok (b, s', e') -> run repl_env (OInit :: dos ++ [o]) (st0 i) = Ok (tt, s', es ++ e').
Proof.
  intros dos i s es o b s' e' H1 H2. change (OInit :: dos ++ [o]) with ((OInit :: dos) ++ [o]).
  apply (run_app_ok repl_env _ [o] _ s es); [exact H1|]. cbn [run]. unfold bind. rewrite H2. cbn [ret]. unfold ret. rewrite app_nil_r. reflexivity.
Qed.

Lemma taken_app : forall a b l, SpecRx.taken (a ++ b) l = SpecRx.taken a l ++ SpecRx.taken b (listen_all a l).
Proof.
  induction a as [|o a IH]; intros b l; [reflexivity|]. cbn [List.app SpecRx.taken]. rewrite IH, app_assoc. reflexivity.
Qed.

Lemma merged_snoc_left : forall (A : Type) a b l (x : A), merged a b l -> merged (a ++ [x]) b (l ++ [x]).
Proof. intros A a b l x H. induction H; cbn [List.app]; repeat constructor; assumption. Qed.
Lemma merged_snoc_right : forall (A : Type) a b l (x : A), merged a b l -> merged a (b ++ [x]) (l ++ [x]).
Proof. intros A a b l x H. induction H; cbn [List.app]; repeat constructor; assumption. Qed.
Lemma merged_none : forall (A : Type) (a l : list A), merged a [] l -> l = a.
Proof.
  intros A a l H. remember (@nil A) as b eqn:Eb. induction H; [reflexivity| |discriminate]. f_equal. auto.
Qed.
