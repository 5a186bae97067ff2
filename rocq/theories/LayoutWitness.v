(** Concrete runs for the properties of the whole layout *)
From Verif Require Import Prelude Address ZBits SpecCodec SpecTx TxProofs Tx CodecProofs CodecProofs2 RxState Rx SpecRx RxLogic
  RxBitProofs RxBitProofs5 SpecExec SpecConf SpecCv Toy SpecLayout LayoutProofs LayoutProofs2 LayoutProofs3 LayoutProofs4 SpecLayout2
  LayoutProofs7 LayoutProofs8.
Local Ltac Zify.zify_post_hook ::= Z.div_mod_to_equations.

Lemma set_bit_sweep :
  forallb (fun x => forallb (fun k => forallb (fun b : bool =>
    (if b then Z.setbit (Z.of_nat x) (Z.of_nat k) else Z.clearbit (Z.of_nat x) (Z.of_nat k)) =? set_bit (Z.of_nat x) (Z.of_nat k) b)
    [true; false]) (seq 0 8)) (seq 0 256) = true.
Proof. vm_compute. reflexivity. Qed.

Lemma toy_keeps : keeps_cvs all_cvs toy (fun c a => u8 (c a)).
Proof.
  split; [exact toy_memory|]. cbn [toy e_writeCv e_writeCvBit snd]. split.
  - intros i a v _ Hv. unfold put. rewrite Z.eqb_refl. apply u8_id. exact Hv.
  - intros i a b k _ Hk. unfold put. rewrite Z.eqb_refl.
    assert (Hlow : u8 (if b then Z.setbit (i a) k else Z.clearbit (i a) k)
                   = (if b then Z.setbit (u8 (i a)) k else Z.clearbit (u8 (i a)) k)).
    { unfold u8. change 256 with (2 ^ 8). apply Z.bits_inj'. intros j Hj.
      destruct b; destruct (Z_lt_le_dec j 8).
      - rewrite Z.mod_pow2_bits_low, !Z.setbit_eqb, Z.mod_pow2_bits_low by lia. reflexivity.
      - rewrite Z.mod_pow2_bits_high, Z.setbit_eqb, Z.mod_pow2_bits_high by lia.
        destruct (Z.eqb_spec k j); [lia|reflexivity].
      - rewrite Z.mod_pow2_bits_low, !Z.clearbit_eqb, Z.mod_pow2_bits_low by lia. reflexivity.
      - rewrite Z.mod_pow2_bits_high, Z.clearbit_eqb, Z.mod_pow2_bits_high by lia. reflexivity. }
    rewrite Hlow. assert (Hx : 0 <= u8 (i a) < 256) by (unfold u8; lia).
    pose proof set_bit_sweep as H. rewrite forallb_forall in H.
    specialize (H (Z.to_nat (u8 (i a)))). rewrite forallb_forall in H.
    specialize (H ltac:(apply in_seq; lia) (Z.to_nat k)). rewrite forallb_forall in H.
    specialize (H ltac:(apply in_seq; lia) b). rewrite !Z2Nat.id in H by lia.
    apply Z.eqb_eq, H. destruct b; cbn; auto.
Qed.

(** ** Every write of the orders is made *)

Definition stands (mem : memory) : Prop :=
  match snd mem with
  | Some (_, CWrite a b) => permitted (cvs_locked (switches (fst mem))) (Store a b) = true -> fst mem a = b
  | Some (_, CWriteBit a b k) =>
      0 <= k -> permitted (cvs_locked (switches (fst mem))) (StoreBit a b k) = true -> bit_of (fst mem a) k = b
  | _ => True
  end.

Lemma bit_set : forall v k b, 0 <= k -> bit_of (set_bit v k b) k = b.
Proof.
  intros v k b Hk. unfold set_bit. set (o := bit_of v k). unfold bit_of at 1.
  rewrite Z.mul_comm, Z.div_add by (pose proof (Z.pow_pos_nonneg 2 k); lia).
  rewrite Z.odd_add. change (Z.odd (v / 2 ^ k)) with o. destruct o, b; reflexivity.
Qed.

Lemma carry_stands : forall o mem, stands mem -> stands (fst (carry_out o mem)).
Proof.
  intros [n d] [c last] H. cbn [carry_out].
  destruct (negb (answers c n)); [exact H|]. destruct (negb (on_cvs d)); [exact H|].
  destruct (negb (n =? 0) && _); [exact H|]. cbn [fst].
  destruct d; try exact Logic.I; unfold stands; cbn [fst snd wanted].
  - destruct (same last n (CWrite cv b)) eqn:Es; cbn [filter].
    + assert (Hl : exists n', last = Some (n', CWrite cv b)).
      { destruct last as [[n' d']|]; [|discriminate]. cbn [same] in Es. apply andb_prop in Es. destruct Es as [_ Es].
        destruct (cmd_eq_dec d' (CWrite cv b)) as [->|]; [|discriminate]. eauto. }
      destruct Hl as (n' & ->). unfold stands in H. cbn [fst snd] in H.
      destruct (permitted _ (Check cv b)); exact H.
    + destruct (permitted (cvs_locked (switches c)) (Store cv b)) eqn:Ep; cbn [fold_left after].
      * intros _. unfold set_cv. rewrite Z.eqb_refl. reflexivity.
      * congruence.
  - destruct (same last n (CWriteBit cv bit pos)) eqn:Es; cbn [filter].
    + assert (Hl : exists n', last = Some (n', CWriteBit cv bit pos)).
      { destruct last as [[n' d']|]; [|discriminate]. cbn [same] in Es. apply andb_prop in Es. destruct Es as [_ Es].
        destruct (cmd_eq_dec d' (CWriteBit cv bit pos)) as [->|]; [|discriminate]. eauto. }
      destruct Hl as (n' & ->). exact H.
    + destruct (permitted (cvs_locked (switches c)) (StoreBit cv bit pos)) eqn:Ep; cbn [fold_left after].
      * intros Hk _. unfold set_cv. rewrite Z.eqb_refl. apply bit_set. exact Hk.
      * congruence.
Qed.

Lemma carry_all_stands : forall os mem, stands mem -> stands (fst (carry_out_all os mem)).
Proof.
  induction os as [|o os IH]; intros mem H; [exact H|]. cbn [carry_out_all].
  pose proof (carry_stands o mem H) as H1. destruct (carry_out o mem) as [m1 a]. specialize (IH m1 H1).
  destruct (carry_out_all os m1) as [m2 b]. exact IH.
Qed.

Lemma written : forall os c0 n d, cmd_ok d ->
  let mem := fst (carry_out_all os (c0, None)) in
  let c := fst mem in
  let c' := fst (fst (carry_out (n, d) mem)) in
  answers c n = true -> n = 0 \/ n <> aval (consist_address c) -> cvs_locked (switches c) = false ->
  match d with
  | CWrite a b => c' a = b
  | CWriteBit a b k => bit_of (c' a) k = b
  | _ => c' = c
  end.
Proof.
  intros os c0 n d Hd mem c c' Ha Hn Hl.
  assert (Hs : stands mem) by (apply carry_all_stands; exact Logic.I).
  clearbody mem. destruct mem as [cc last]. subst c c'. cbn [fst snd] in *. cbn [carry_out].
  rewrite Ha. cbn [negb].
  assert (Hc : negb (n =? 0) && (n =? aval (consist_address cc)) = false).
  { destruct Hn as [->|Hn]; [reflexivity|]. rewrite (proj2 (Z.eqb_neq n _) Hn). apply andb_false_r. }
  destruct (on_cvs d) eqn:Ed; cbn [negb].
  2: { destruct d; (reflexivity || discriminate). }
  rewrite Hc. cbn [fst].
  assert (Hp : forall xs, filter (permitted (cvs_locked (switches cc))) xs = xs).
  { intros xs. rewrite Hl. induction xs as [|x xs IH]; [reflexivity|]. cbn [filter]. rewrite IH. reflexivity. }
  destruct d; try discriminate; rewrite Hp; cbn [wanted].
  - reflexivity.
  - destruct (same last n (CWrite cv b)) eqn:Es; cbn [fold_left after].
    + destruct last as [[n' d']|]; [|discriminate]. cbn [same] in Es. apply andb_prop in Es. destruct Es as [_ Es].
      destruct (cmd_eq_dec d' (CWrite cv b)) as [->|]; [|discriminate].
      apply Hs. cbn [fst]. unfold permitted. rewrite Hl. reflexivity.
    + unfold set_cv. rewrite Z.eqb_refl. reflexivity.
  - reflexivity.
  - destruct Hd as [_ Hk]. destruct (same last n (CWriteBit cv bit pos)) eqn:Es; cbn [fold_left after].
    + destruct last as [[n' d']|]; [|discriminate]. cbn [same] in Es. apply andb_prop in Es. destruct Es as [_ Es].
      destruct (cmd_eq_dec d' (CWriteBit cv bit pos)) as [->|]; [|discriminate].
      apply Hs; [lia|]. cbn [fst]. unfold permitted. rewrite Hl. reflexivity.
    + unfold set_cv. rewrite Z.eqb_refl. apply bit_set. lia.
Qed.

Lemma carry_out_last : forall os o mem,
  fst (carry_out_all (os ++ [o]) mem) = fst (carry_out o (fst (carry_out_all os mem))).
Proof.
  induction os as [|x os IH]; intros o mem; cbn [List.app carry_out_all].
  - cbn [fst]. destruct (carry_out o mem); reflexivity.
  - destruct (carry_out x mem) as [m1 a]. specialize (IH o m1).
    destruct (carry_out_all (os ++ [o]) m1), (carry_out_all os m1). exact IH.
Qed.

Section Made.
  Context {I : Type} (E : Env I) (m : I -> Z -> Z) (able : access -> Prop) (Hk : keeps_cvs able E m).

  Lemma write_made : forall dos i s es os n d pss, run E (OInit :: dos) (st0 i) = Ok (tt, s, es) -> logons dos listener0 = [] ->
    Forall order_ok (os ++ [(n, d)]) -> Forall2 packets_for (os ++ [(n, d)]) pss ->
    filter not_idle (SpecRx.taken dos listener0) = concat pss ->
    Forall (allowed able) (snd (carry_out_all (os ++ [(n, d)]) (m i, None))) ->
    let c := fst (fst (carry_out_all os (m i, None))) in
    answers c n = true -> n = 0 \/ n <> aval (consist_address c) -> cvs_locked (switches c) = false ->
    match d with
    | CWrite a b => m (Rx.app s) a = b
    | CWriteBit a b k => bit_of (m (Rx.app s) a) k = b
    | _ => forall a, m (Rx.app s) a = c a
    end.
  Proof.
    intros dos i s es os n d pss Hrun Hlo Ho Hp Hf Hal c Ha Hn Hl.
    destruct (orders_seen E m able Hk dos i s es _ pss Hrun Hlo Ho Hp Hf Hal) as [_ Hmem].
    rewrite carry_out_last in Hmem.
    apply Forall_app in Ho. destruct Ho as [_ Ho]. inversion Ho as [|? ? [_ Hd] _]; subst. cbn [snd] in Hd.
    pose proof (written os (m i) n d Hd Ha Hn Hl) as Hw.
    destruct d; try (intros a; rewrite Hmem, Hw; reflexivity).
    - rewrite Hmem. exact Hw.
    - rewrite Hmem. exact Hw.
  Qed.
End Made.

(** ** Runs *)

(** Packets on the track, then [k] executions *)
Definition hears (ps : list (list Z)) (k : nat) : list op :=
  flat_map (fun p => map OReceive (half_bits 58 100 (track_bits 14 p))) ps ++ OReceive 58 :: repeat OExecute k.

(** CV19 = 5 by two packets, CV19 = 0 by the consist instruction, CV19 = 5 by two packets *)
Definition consist_talk : list (list Z) :=
  let w := frame 3 [0xEC; 18; 5] in [w; w; frame 3 [0x12; 0]; w; w].

Lemma lost_write : exists s es,
  run toy (OInit :: hears consist_talk 5) (st0 factory) = Ok (tt, s, es) /\
  logons (hears consist_talk 5) listener0 = [] /\ SpecRx.taken (hears consist_talk 5) listener0 = consist_talk /\
  (Rx.app s) 18 = 0.
Proof. do 2 eexists. split; [vm_compute; reflexivity|]. split; [vm_compute; reflexivity|]. split; vm_compute; reflexivity. Qed.
