(** Arithmetic facts about bit operations used by the proofs. *)
From Verif Require Import Prelude.
Ltac Zify.zify_post_hook ::= Z.div_mod_to_equations.

Lemma testbit_above : forall b k i, 0 <= b < 2 ^ k -> 0 <= k <= i -> Z.testbit b i = false.
Proof.
  intros b k i Hb Hi.
  destruct (Z.eq_dec b 0) as [->|Hne]; [apply Z.bits_0|].
  apply Z.bits_above_log2; [lia|].
  apply Z.log2_lt_pow2; [lia|].
  apply Z.lt_le_trans with (2 ^ k); [lia|]. apply Z.pow_le_mono_r; lia.
Qed.

Lemma land_mul_pow2_low : forall a b k, 0 <= k -> 0 <= b < 2 ^ k -> Z.land (a * 2 ^ k) b = 0.
Proof.
  intros a b k Hk Hb. apply Z.bits_inj'. intros n Hn.
  rewrite Z.land_spec, Z.bits_0.
  destruct (Z_lt_le_dec n k).
  - rewrite Z.mul_pow2_bits_low by lia. reflexivity.
  - rewrite (testbit_above b k n) by lia. apply andb_false_r.
Qed.

Lemma lor_add : forall a b k, 0 <= k -> 0 <= b < 2 ^ k -> Z.lor (a * 2 ^ k) b = a * 2 ^ k + b.
Proof.
  intros a b k Hk Hb.
  pose proof (land_mul_pow2_low a b k Hk Hb) as L.
  rewrite <- Z.lxor_lor by exact L. symmetry. apply Z.add_nocarry_lxor. exact L.
Qed.

Lemma lor_shiftl : forall a b k, 0 <= k -> 0 <= b < 2 ^ k ->
  Z.lor (Z.shiftl a k) b = a * 2 ^ k + b.
Proof. intros. rewrite Z.shiftl_mul_pow2 by lia. apply lor_add; assumption. Qed.

Lemma land_mask : forall a k, 0 <= k -> Z.land a (2 ^ k - 1) = a mod 2 ^ k.
Proof.
  intros a k Hk. rewrite <- Z.land_ones by assumption. f_equal.
  rewrite Z.ones_equiv. lia.
Qed.

Lemma land_FF : forall a, Z.land a 255 = a mod 256.
Proof. intros. exact (land_mask a 8 ltac:(lia)). Qed.
Lemma land_3F : forall a, Z.land a 63 = a mod 64.
Proof. intros. exact (land_mask a 6 ltac:(lia)). Qed.
Lemma land_7F : forall a, Z.land a 127 = a mod 128.
Proof. intros. exact (land_mask a 7 ltac:(lia)). Qed.
Lemma land_3FF : forall a, Z.land a 1023 = a mod 1024.
Proof. intros. exact (land_mask a 10 ltac:(lia)). Qed.
Lemma land_3FFF : forall a, Z.land a 16383 = a mod 16384.
Proof. intros. exact (land_mask a 14 ltac:(lia)). Qed.
Lemma land_0F : forall a, Z.land a 15 = a mod 16.
Proof. intros. exact (land_mask a 4 ltac:(lia)). Qed.
Lemma land_7 : forall a, Z.land a 7 = a mod 8.
Proof. intros. exact (land_mask a 3 ltac:(lia)). Qed.
Lemma land_3 : forall a, Z.land a 3 = a mod 4.
Proof. intros. exact (land_mask a 2 ltac:(lia)). Qed.

Lemma shiftr_div : forall a k, 0 <= k -> Z.shiftr a k = a / 2 ^ k.
Proof. intros. apply Z.shiftr_div_pow2. assumption. Qed.

(** A field of bits: bits k .. k+w-1 of a *)
Lemma shiftr_land_field : forall a k w, 0 <= k -> 0 <= w ->
  Z.shiftr (Z.land a (Z.shiftl (2 ^ w - 1) k)) k = (a / 2 ^ k) mod 2 ^ w.
Proof.
  intros a k w Hk Hw.
  rewrite Z.shiftr_land, Z.shiftr_shiftl_l by assumption.
  rewrite Z.sub_diag, Z.shiftl_0_r, land_mask, shiftr_div by lia. reflexivity.
Qed.

Lemma lxor_byte : forall a b, byte a -> byte b -> byte (Z.lxor a b).
Proof.
  unfold byte. intros a b Ha Hb.
  assert (0 <= Z.lxor a b) by (apply Z.lxor_nonneg; lia).
  split; [assumption|].
  destruct (Z.eq_dec (Z.lxor a b) 0) as [E|E]; [lia|].
  change 256 with (2 ^ 8). apply Z.log2_lt_pow2; [lia|].
  assert (Z.log2 (Z.lxor a b) <= Z.max (Z.log2 a) (Z.log2 b)) by (apply Z.log2_lxor; lia).
  assert (forall x, 0 <= x < 256 -> Z.log2 x < 8) as L.
  { intros x Hx. destruct (Z.eq_dec x 0) as [->|]; [reflexivity|].
    apply Z.log2_lt_pow2; lia. }
  pose proof (L a Ha). pose proof (L b Hb). lia.
Qed.

Lemma u8_id : forall a, byte a -> u8 a = a.
Proof. unfold byte, u8. intros. apply Z.mod_small. lia. Qed.
Lemma u8_byte : forall a, byte (u8 a).
Proof. unfold byte, u8. intros. lia. Qed.

(** Pairs of bytes, checked exhaustively *)
Lemma sweep88 : forall (P : Z -> Z -> bool),
    forallb (fun a => forallb (P a) (zseq 0 256)) (zseq 0 256) = true ->
    forall a b, byte a -> byte b -> P a b = true.
Proof.
  intros P H a b Ha Hb.
  apply (sweep8 (P a)); [|assumption].
  exact (sweep8 (fun a => forallb (P a) (zseq 0 256)) H a Ha).
Qed.

(** Reduce an equation between results to equations between numbers *)
Ltac parts :=
  repeat (match goal with
          | |- Ok _ = Ok _ => apply f_equal
          | |- (_ :: _) = (_ :: _) => apply f_equal2
          | |- ?x = ?x => reflexivity
          end).
