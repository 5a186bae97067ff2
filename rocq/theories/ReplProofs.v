(** Proofs about the example examples/repl *)
From Verif Require Import Prelude Address Packets ZBits SpecCodec SpecTx TxProofs Tx CodecProofs CodecProofs2 RxState Rx RxLogic SpecRx
  RxBitProofs RxBitProofs2 RxBitProofs3 RxBitProofs4 RxBitProofs5 SpecExec SpecConf SpecCv
  SpecLayout LayoutProofs LayoutProofs2 LayoutProofs3 LayoutProofs4 LayoutProofs5 LayoutProofs6 SpecLayout2 LayoutProofs7
  LayoutProofs8 LayoutWitness Repl SpecRepl.
Local Ltac Zify.zify_post_hook ::= Z.div_mod_to_equations.

(** ** The array as CV memory *)

Lemma in_array_spec : forall a, in_array a = true <-> 0 <= a < 1024.
Proof. intros a. unfold in_array. rewrite andb_true_iff, Z.leb_le, Z.ltb_lt. reflexivity. Qed.

Lemma bit_low : forall x k, 0 <= k < 8 -> bit_of (u8 x) k = Z.testbit x k.
Proof.
  intros x p Hp. unfold bit_of, u8. rewrite <- Z.shiftr_div_pow2, <- Z.testbit_odd by lia.
  change 256 with (2 ^ 8). apply Z.mod_pow2_bits_low. lia.
Qed.

Lemma one_bit : forall x k, 0 <= k -> negb (Z.land x (Z.shiftl 1 k) =? 0) = Z.testbit x k.
Proof.
  intros x k Hk. rewrite Z.shiftl_1_l. destruct (Z.testbit x k) eqn:E.
  - apply negb_true_iff, Z.eqb_neq. intros H.
    assert (Hb : Z.testbit (Z.land x (2 ^ k)) k = true) by (rewrite Z.land_spec, E, Z.pow2_bits_true by lia; reflexivity).
    rewrite H, Z.bits_0 in Hb. discriminate.
  - apply negb_false_iff, Z.eqb_eq. apply Z.bits_inj'. intros j Hj. rewrite Z.land_spec, Z.bits_0.
    destruct (Z.eq_dec j k) as [->|Hn]; [rewrite E; reflexivity|]. rewrite Z.pow2_bits_false by lia. apply andb_false_r.
Qed.

Lemma stored_bit : forall x b k, 0 <= k < 8 ->
  u8 (Z.lor (Z.land x (Z.lnot (Z.shiftl 1 k))) (Z.shiftl (Z.b2z b) k)) = set_bit (u8 x) k b.
Proof.
  intros x b k Hk.
  assert (H1 : u8 (Z.lor (Z.land x (Z.lnot (Z.shiftl 1 k))) (Z.shiftl (Z.b2z b) k))
               = if b then Z.setbit (u8 x) k else Z.clearbit (u8 x) k).
  { unfold u8. change 256 with (2 ^ 8). rewrite Z.shiftl_1_l. apply Z.bits_inj'. intros j Hj.
    assert (Hs : Z.testbit (Z.shiftl (Z.b2z b) k) j = b && (j =? k)).
    { rewrite Z.shiftl_spec by lia. destruct b; cbn [Z.b2z andb]; [|apply Z.bits_0].
      destruct (Z.eqb_spec j k) as [->|]; [rewrite Z.sub_diag; reflexivity|].
      destruct (Z_lt_le_dec j k); [apply Z.testbit_neg_r; lia|].
      change 1 with (2 ^ 0). rewrite Z.pow2_bits_false by lia. reflexivity. }
    destruct (Z_lt_le_dec j 8).
    - rewrite Z.mod_pow2_bits_low, Z.lor_spec, Z.land_spec, Z.lnot_spec, Hs by lia.
      rewrite Z.pow2_bits_eqb by lia. rewrite (Z.eqb_sym k j).
      destruct b; [rewrite Z.setbit_eqb by lia|rewrite Z.clearbit_eqb by lia]; rewrite Z.mod_pow2_bits_low by lia;
        rewrite (Z.eqb_sym k j); destruct (j =? k), (Z.testbit x j); reflexivity.
    - rewrite Z.mod_pow2_bits_high by lia.
      destruct b; [rewrite Z.setbit_eqb by lia|rewrite Z.clearbit_eqb by lia]; rewrite Z.mod_pow2_bits_high by lia;
        destruct (Z.eqb_spec k j); try lia; reflexivity. }
  rewrite H1. assert (Hx : 0 <= u8 x < 256) by (unfold u8; lia).
  pose proof set_bit_sweep as H. rewrite forallb_forall in H.
  specialize (H (Z.to_nat (u8 x))). rewrite forallb_forall in H.
  specialize (H ltac:(apply in_seq; lia) (Z.to_nat k)). rewrite forallb_forall in H.
  specialize (H ltac:(apply in_seq; lia) b). rewrite !Z2Nat.id in H by lia.
  apply Z.eqb_eq, H. destruct b; cbn; auto.
Qed.

Lemma u8_twice : forall x, u8 (u8 x) = u8 x.
Proof. intros x. unfold u8. apply Z.mod_mod. lia. Qed.

Lemma cvs_store : forall m a b x, 0 <= a < 1024 -> cvs_of (store_at m a b) x = if x =? a then u8 b else cvs_of m x.
Proof.
  intros m a b x Ha. unfold cvs_of, store_at. destruct (Z.eqb_spec x a) as [->|]; [|reflexivity].
  replace ((0 <=? a) && (a <? 1024)) with true; [reflexivity|]. symmetry. apply andb_true_iff. lia.
Qed.

Lemma repl_memory : keeps_cvs all_cvs repl_env cvs_of.
Proof.
  assert (Hin : forall m a, in_array a = true -> cvs_of m a = u8 (m a)).
  { intros m a H. unfold cvs_of. unfold in_array in H. rewrite H. reflexivity. }
  assert (Hout : forall m a, in_array a = false -> cvs_of m a = 0).
  { intros m a H. unfold cvs_of. unfold in_array in H. rewrite H. reflexivity. }
  split; [constructor|]; cbn [repl_env e_readCv e_readCvByte e_readCvBit e_writeCv e_writeCvBit e_hook e_rand e_now
    e_async_readable e_async_writable fst snd]; auto.
  - intros i a. unfold cvs_of, byte. destruct (_ && _); unfold u8; lia.
  - intros i a. split; [|reflexivity]. destruct (in_array a) eqn:E; [rewrite Hin by exact E|rewrite Hout by exact E]; reflexivity.
  - intros i a b. split; [|reflexivity]. destruct (in_array a) eqn:E; [rewrite Hin by exact E|rewrite Hout by exact E]; reflexivity.
  - intros i a b k Hk. split; [|reflexivity]. destruct (in_array a) eqn:E.
    + rewrite Hin by exact E. rewrite bit_low, one_bit by lia. reflexivity.
    + rewrite Hout by exact E. unfold bit_of. rewrite Z.div_0_l by (apply Z.pow_nonzero; lia). reflexivity.
  - intros i a b. destruct (in_array a) eqn:E; cbn [fst snd].
    + apply in_array_spec in E. rewrite cvs_store, Z.eqb_refl by exact E. split; [reflexivity|].
      intros x Hx. rewrite cvs_store by exact E. rewrite (proj2 (Z.eqb_neq _ _) Hx). reflexivity.
    + rewrite Hout by exact E. auto.
  - intros i a b k Hk. destruct (in_array a) eqn:E; cbn [fst snd].
    + apply in_array_spec in E. rewrite cvs_store, Z.eqb_refl by exact E. rewrite one_bit by lia. split.
      * symmetry. apply bit_low. exact Hk.
      * intros x Hx. rewrite cvs_store by exact E. rewrite (proj2 (Z.eqb_neq _ _) Hx). reflexivity.
    + rewrite Hout by exact E. split; [|reflexivity]. unfold bit_of. rewrite Z.div_0_l by (apply Z.pow_nonzero; lia). reflexivity.
  - split.
    + intros i a v Ha Hv. rewrite (proj2 (in_array_spec a) Ha). cbn [snd]. rewrite cvs_store, Z.eqb_refl by exact Ha.
      unfold u8, byte in *. lia.
    + intros i a b k Ha Hk. rewrite (proj2 (in_array_spec a) Ha). cbn [snd]. rewrite cvs_store, Z.eqb_refl by exact Ha.
      rewrite u8_twice. rewrite Hin by (apply in_array_spec; exact Ha). apply stored_bit. exact Hk.
Qed.

(** ** A station with known history and a decoder *)

Lemma started_queued : forall c h bs, history_ok c h -> In (Some bs) (started h) -> In bs (queued h).
Proof.
  intros c h bs Hh Hp. unfold started in Hp. apply in_flat_map in Hp. destruct Hp as (e & He & Hp).
  destruct e as [| |q|]; try contradiction. destruct Hp as [-> |[]].
  apply in_split in He. destruct He as (h1 & h2 & ->).
  destruct (Hh h1 (Started (Some bs)) h2 eq_refl) as (ws & Hw & Hhd & _).
  rewrite queued_app. apply in_or_app. left. unfold waiting in Hw. rewrite Hw. apply in_or_app. right.
  destruct ws; [discriminate|]. inversion Hhd. left. reflexivity.
Qed.

Section Known.
  Context {I : Type} (E : Env I).

  Lemma known_history : forall c h i dos s es, config_ok c -> history_ok c h -> Forall packet_ok (queued h) ->
    filter is_receive dos = map OReceive (map fst (ticks h)) -> ~ In ODisable dos -> never_full dos listener0 ->
    run E dos (st0 i) = Ok (tt, s, es) ->
    SpecRx.taken dos listener0 ++ r_deque (rxs s) = finished c (None :: started h) (length (ticks h)) /\
    logons dos listener0 = [].
  Proof.
    intros c h i dos s es Hc Hh Hpk Hdos Hnd Hnf Hrun.
    rewrite <- (proj1 (fifo E i dos s es Hrun)).
    rewrite (heard_machine E dos _ _ _ _ (Rl0 i) Hrun Hnd Hnf), (logons_machine E dos _ _ _ _ (Rl0 i) Hrun Hnd Hnf).
    rewrite (half_bits_in_receives _ _ Hdos).
    destruct (ticks_prefix c h Hh) as (rest & Hrest). unfold track in Hrest.
    assert (Hfn : map fst (ticks h) = firstn (length (ticks h)) (map fst (flat_map (on_track c) (None :: started h)))).
    { rewrite <- Hrest, map_app, firstn_app, map_length, Nat.sub_diag, firstn_O, app_nil_r.
      rewrite firstn_all2; [reflexivity|rewrite map_length; lia]. }
    assert (Hok : Forall (fun p => packet_ok (bytes p)) (None :: started h)).
    { constructor; [exact idle_ok|]. apply Forall_forall. intros p Hp.
      destruct p as [bs|]; [|exact idle_ok]. cbn [bytes]. rewrite Forall_forall in Hpk. apply Hpk.
      exact (started_queued c h bs Hh Hp). }
    rewrite Hfn. split; [apply mrun_track|apply lrun_track]; auto; repeat split.
  Qed.
End Known.
