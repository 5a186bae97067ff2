(** An application that refuses wrong addresses in CV1, and concrete runs *)
From Verif Require Import Prelude Address ZBits SpecCodec SpecTx TxProofs Tx RxState Rx CodecProofs CodecProofs2 RxLogic SpecRx
  RxBitProofs RxBitProofs2 RxBitProofs3 RxBitProofs4 RxBitProofs5 SpecExec SpecConf SpecCv SpecLogon SpecBidi SpecSafe SafeProofs2 Toy
  SpecLayout LayoutProofs4 LayoutProofs5 LayoutProofs6 SpecLayout2 LayoutProofs8 LayoutWitness ReplProofs SpecStation StationProofs StationProofs2 StationProofs3 StationProofs4.
Local Ltac Zify.zify_post_hook ::= Z.div_mod_to_equations.

(** ** An application that shows at most 127 in CV1 *)

Definition shown (m : Z -> Z) (a : Z) : Z := if a =? 0 then m 0 mod 128 else u8 (m a).
Definition careful : Env (Z -> Z) :=
  Mk_env _
    (fun m a => (shown m a, m))
    (fun m a b => (shown m a, m))
    (fun m a v p => (bit_of (shown m a) p, m))
    (fun m a b => (shown (put m a b) a, put m a b))
    (fun m a v p => let m1 := put m a (set_bit (shown m a) p v) in (bit_of (shown m1 a) p, m1))
    (fun m e => (None, m))
    (fun m e => m)
    (fun m => (3, m))
    (fun m => (0, m))
    false false false false.

Lemma shown_byte : forall m a, byte (shown m a).
Proof. intros m a. unfold shown, byte, u8. destruct (a =? 0); lia. Qed.

Lemma set_bit_byte : forall v k b, byte v -> 0 <= k < 8 -> byte (set_bit v k b).
Proof.
  intros v k b Hv Hk.
  assert (H : forallb (fun x => forallb (fun k => forallb (fun b : bool =>
    let y := set_bit (Z.of_nat x) (Z.of_nat k) b in (0 <=? y) && (y <? 256)) [true; false]) (seq 0 8)) (seq 0 256) = true)
    by (vm_compute; reflexivity).
  rewrite forallb_forall in H. specialize (H (Z.to_nat v) ltac:(apply in_seq; unfold byte in Hv; lia)).
  rewrite forallb_forall in H. specialize (H (Z.to_nat k) ltac:(apply in_seq; lia)).
  rewrite forallb_forall in H. specialize (H b ltac:(destruct b; cbn; auto)). cbv zeta in H.
  unfold byte in *. rewrite !Z2Nat.id in H by lia. apply andb_prop in H. lia.
Qed.

Lemma set_bit_low : forall v k b, 0 <= v < 128 -> 0 <= k < 7 -> 0 <= set_bit v k b < 128.
Proof.
  intros v k b Hv Hk.
  assert (H : forallb (fun x => forallb (fun k => forallb (fun b : bool =>
    let y := set_bit (Z.of_nat x) (Z.of_nat k) b in (0 <=? y) && (y <? 128)) [true; false]) (seq 0 7)) (seq 0 128) = true)
    by (vm_compute; reflexivity).
  rewrite forallb_forall in H. specialize (H (Z.to_nat v) ltac:(apply in_seq; lia)).
  rewrite forallb_forall in H. specialize (H (Z.to_nat k) ltac:(apply in_seq; lia)).
  rewrite forallb_forall in H. specialize (H b ltac:(destruct b; cbn; auto)). cbv zeta in H.
  rewrite !Z2Nat.id in H by lia. apply andb_prop in H. lia.
Qed.

Lemma shown_put : forall m a v x, x <> a -> shown (put m a v) x = shown m x.
Proof.
  intros m a v x Hx. unfold shown, put. destruct (Z.eqb_spec x 0) as [->|H0].
  - rewrite (proj2 (Z.eqb_neq 0 a)) by congruence. reflexivity.
  - rewrite (proj2 (Z.eqb_neq x a)) by congruence. reflexivity.
Qed.

Lemma u8_shown : forall m a, u8 (shown m a) = shown m a.
Proof. intros m a. pose proof (shown_byte m a) as H. unfold u8, byte in *. lia. Qed.

Lemma careful_keeps : keeps_cvs sensible careful shown.
Proof.
  split; [|split].
  - constructor; cbn [careful e_readCv e_readCvByte e_readCvBit e_writeCv e_writeCvBit e_hook e_rand e_now fst snd];
      try (intros; split; first [apply u8_shown | reflexivity]); try reflexivity.
    + exact shown_byte.
    + intros i a b. split; [apply u8_shown|]. intros x Hx. apply shown_put. exact Hx.
    + intros i a b k Hk. split; [reflexivity|]. intros x Hx. apply shown_put. exact Hx.
  - intros i a v Ha Hv. cbn [careful e_writeCv snd sensible] in *. unfold shown, put, byte in *.
    destruct (Z.eqb_spec a 0) as [->|H0].
    + rewrite Z.eqb_refl. specialize (Ha eq_refl). lia.
    + rewrite Z.eqb_refl. unfold u8. lia.
  - intros i a b k Ha Hv. cbn [careful e_writeCvBit snd sensible] in *. unfold shown at 1, put.
    pose proof (set_bit_byte (shown i a) k b (shown_byte i a) Hv) as Hsb.
    destruct (Z.eqb_spec a 0) as [->|H0].
    + rewrite Z.eqb_refl. specialize (Ha eq_refl).
      assert (Hl : 0 <= set_bit (shown i 0) k b < 128).
      { apply set_bit_low; [unfold shown; cbn [Z.eqb]; lia|lia]. }
      lia.
    + rewrite Z.eqb_refl. unfold u8, byte in *. lia.
Qed.

Lemma careful_short : short_cv1 careful.
Proof. intros i. cbn [careful e_readCv fst]. unfold shown. cbn [Z.eqb]. lia. Qed.
Lemma careful_clock : clock careful (fun _ => 0).
Proof. unfold clock. cbn. repeat split; intros; lia. Qed.

(** ** Checking [executes_every] *)

Fixpoint gaps (n k : nat) (os : list op) : bool :=
  match os with
  | [] => (k <? n)%nat
  | OExecute :: r => (k <? n)%nat && gaps n 0 r
  | OReceive _ :: r => gaps n (S k) r
  | _ :: r => gaps n k r
  end.

Lemma gaps_less : forall n os k j, (j <= k)%nat -> gaps n k os = true -> gaps n j os = true.
Proof.
  intros n. induction os as [|o os IH]; intros k j Hj H; cbn [gaps] in *.
  - apply Nat.ltb_lt in H. apply Nat.ltb_lt. lia.
  - destruct o; try (apply (IH k); assumption).
    + apply (IH (S k)); [lia|exact H].
    + apply andb_prop in H. destruct H as [H1 H2]. apply Nat.ltb_lt in H1. apply andb_true_intro.
      split; [apply Nat.ltb_lt; lia|exact H2].
Qed.

Lemma gaps_skip : forall n a os k, gaps n k (a ++ os) = true -> gaps n 0 os = true.
Proof.
  intros n. induction a as [|o a IH]; intros os k H; cbn [List.app gaps] in *.
  - apply (gaps_less n os k 0); [lia|exact H].
  - destruct o; try (apply (IH _ k); assumption).
    + apply (IH _ (S k)). exact H.
    + apply andb_prop in H. apply (IH _ 0%nat). apply H.
Qed.

Lemma gaps_short : forall n b os k, gaps n k (b ++ os) = true -> ~ In OExecute b -> (k + receives b < n)%nat.
Proof.
  intros n. induction b as [|o b IH]; intros os k H Hb.
  - cbn [List.app] in H. unfold receives. cbn [filter length]. rewrite Nat.add_0_r. revert k H.
    induction os as [|o os IHo]; intros k H; cbn [gaps] in H; [apply Nat.ltb_lt; exact H|].
    destruct o; try (apply IHo; exact H).
    + specialize (IHo (S k) H). lia.
    + apply andb_prop in H. apply Nat.ltb_lt. apply H.
  - assert (Hb' : ~ In OExecute b) by (intro; apply Hb; right; assumption).
    cbn [List.app gaps] in H. unfold receives in *. cbn [filter].
    destruct o; cbn [is_receive]; try (exact (IH os k H Hb')).
    + specialize (IH os (S k) H Hb'). cbn [length]. lia.
    + exfalso. apply Hb. left. reflexivity.
Qed.

Lemma gaps_every : forall n os, gaps n 0 os = true -> executes_every n os.
Proof.
  intros n os H a b c -> Hb.
  assert (Hd : In OExecute b \/ ~ In OExecute b).
  { clear. induction b as [|o b IH]; [right; intros []|]. destruct IH as [IH|IH]; [left; right; exact IH|].
    destruct o; try (right; intros [Hx|Hx]; [discriminate Hx|exact (IH Hx)]). left. left. reflexivity. }
  destruct Hd as [Hi|Hi]; [exact Hi|].
  exfalso. apply gaps_skip in H. apply gaps_short in H; [|exact Hi]. unfold receives in H. lia.
Qed.

(** ** One half bit less often is too seldom *)

(** Reset packets with ten preamble bits, execute() only right behind each *)
Definition hasty (n : nat) : list op :=
  concat (repeat (map OReceive (half_bits 58 100 (track_bits 10 [0; 0; 0])) ++ [OExecute]) n).

Lemma too_seldom : executes_every 77 (hasty 31) /\ ~ never_full (hasty 31) listener0 /\
  executes_every 77 (hasty 40) /\ length (heard (hasty 40) listener0) = 35%nat.
Proof.
  split; [apply gaps_every; vm_compute; reflexivity|]. split.
  - intros H. specialize (H (hasty 31) [] ltac:(rewrite app_nil_r; reflexivity)).
    assert (length (l_queue (listen_all (hasty 31) listener0)) = 31%nat) by (vm_compute; reflexivity). lia.
  - split; [apply gaps_every; vm_compute; reflexivity|vm_compute; reflexivity].
Qed.

(** ** Concrete runs *)

Lemma plain_on_time : forall os, Forall (fun o => match o with OReceive _ | OExecute => True | _ => False end) os -> on_time os.
Proof.
  intros os H os1 o os2 ->. apply Forall_app in H. destruct H as [_ H]. apply Forall_inv in H. destruct o; exact Logic.I || destruct H.
Qed.

(** Durations with execute() behind each [n] *)
Fixpoint prompt (n k : nat) (ts : list Z) : list op :=
  match ts with
  | [] => []
  | t :: r => match k with
              | O => OReceive t :: OExecute :: prompt n n r
              | S k => OReceive t :: prompt n k r
              end
  end.

Lemma prompt_on_time : forall n ts k, on_time (prompt n k ts).
Proof.
  intros n ts k. apply plain_on_time. revert k.
  induction ts as [|t ts IH]; intros [|k]; cbn [prompt]; repeat (apply Forall_cons; [exact Logic.I|]); try apply Forall_nil; apply IH.
Qed.
Lemma prompt_no_disable : forall n ts k, ~ In ODisable (prompt n k ts).
Proof.
  intros n ts. induction ts as [|t ts IH]; intros [|k]; cbn [prompt In]; try tauto.
  - intros [H|[H|H]]; [discriminate H|discriminate H|exact (IH n H)].
  - intros [H|H]; [discriminate H|exact (IH k H)].
Qed.
Lemma prompt_receives : forall n ts k, filter is_receive (prompt n k ts) = map OReceive ts.
Proof. intros n ts. induction ts as [|t ts IH]; intros [|k]; cbn [prompt filter is_receive map]; rewrite ?IH; reflexivity. Qed.
