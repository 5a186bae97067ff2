(** Proofs about BiDi datagrams, speed scaling, packet generators and timings. *)
From Verif Require Import Prelude Address Instruction Checksum Datagram Speed Packets Tx
  ZBits SpecCodec CodecProofs.
Ltac Zify.zify_post_hook ::= Z.div_mod_to_equations.

(** ** 4-of-8 code *)

Lemma sweep6 : forall (P : Z -> bool),
    forallb P (zseq 0 64) = true -> forall d, digit d -> P d = true.
Proof. intros P H d Hd. apply (sweep P 0 64 H). unfold digit in Hd. lia. Qed.

Lemma encode1_spec : forall d, digit d -> exists c,
  encode1 d = Ok c /\ byte c /\ In (c, d) code_words /\ ones8 c = 4 /\
  c <> 0x0F /\ c <> 0xF0 /\ c <> 0x3C /\ nth (Z.to_nat c) decode_lut 0 = d.
Proof.
  intros d Hd.
  pose proof (sweep6 (fun d => match encode1 d with
    | Ok c => (0 <=? c) && (c <? 256)
              && existsb (fun p => (fst p =? c) && (snd p =? d)) code_words
              && (ones8 c =? 4) && negb (c =? 0x0F) && negb (c =? 0xF0) && negb (c =? 0x3C)
              && (nth (Z.to_nat c) decode_lut 0 =? d)
    | UB _ => false end) ltac:(vm_compute; reflexivity) d Hd) as H.
  cbn beta in H. destruct (encode1 d) as [c|]; [|discriminate].
  exists c. repeat rewrite andb_true_iff in H.
  destruct H as [[[[[[[H1 H2] H3] H4] H5] H6] H7] H8].
  apply existsb_exists in H3. destruct H3 as ([x y] & Hin & Hxy).
  cbn [fst snd] in Hxy. apply andb_prop in Hxy. destruct Hxy as [Hx Hy].
  apply Z.eqb_eq in Hx, Hy. subst x y.
  rewrite negb_true_iff, Z.eqb_neq in H5, H6, H7.
  split; [reflexivity|]. unfold byte. repeat split; try assumption; try lia.
Qed.

Lemma encode1_inj : forall d e c, digit d -> digit e -> encode1 d = Ok c -> encode1 e = Ok c -> d = e.
Proof.
  intros d e c Hd He H1 H2.
  destruct (encode1_spec d Hd) as (c1 & E1 & _ & _ & _ & _ & _ & _ & D1).
  destruct (encode1_spec e He) as (c2 & E2 & _ & _ & _ & _ & _ & _ & D2).
  assert (c1 = c2) by congruence. congruence.
Qed.

Lemma encode1_outside : forall d, byte d -> 64 <= d -> encode1 d = UB OutOfBounds.
Proof.
  intros d Hd H. unfold encode1.
  rewrite (proj2 (nth_error_None encode_lut (Z.to_nat d))); [reflexivity|].
  change (length encode_lut) with 64%nat. lia.
Qed.

Lemma encode_datagram_spec : forall ds, Forall digit ds ->
  exists cs, encode_datagram ds = Ok cs /\ coded ds cs /\ length cs = length ds /\
    Forall byte cs /\ Forall (fun c => ones8 c = 4 /\ ~ In c [0x0F; 0xF0; 0x3C]) cs /\
    decode_datagram cs = ds.
Proof.
  induction ds as [|d ds IH]; intros H.
  - exists []. repeat split; try constructor.
  - inversion H; subst. destruct (encode1_spec d) as (c & E & Hc & Hin & H4 & N1 & N2 & N3 & D);
      [assumption|]. destruct IH as (cs & E2 & K & L & B & F & D2); [assumption|].
    exists (c :: cs). cbn [encode_datagram rbind]. rewrite E. cbn [rbind]. rewrite E2. cbn [rbind].
    repeat split.
    + constructor; assumption.
    + cbn [length]. congruence.
    + constructor; assumption.
    + constructor; [|assumption]. split; [assumption|]. cbn [In]. intuition.
    + cbn [decode_datagram map]. f_equal; assumption.
Qed.

(** ** Datagrams *)

Lemma base64_digits : forall n d, Forall digit (base64 n d).
Proof.
  induction n as [|n IH]; intros d; cbn [base64]; constructor; [unfold digit; lia|apply IH].
Qed.

Lemma base64_length : forall n d, length (base64 n d) = n.
Proof. induction n as [|n IH]; intros d; cbn [base64 length]; [reflexivity|]. rewrite IH. reflexivity. Qed.

Lemma base64_snoc : forall n d, base64 (S n) d = base64 n (d / 64) ++ [d mod 64].
Proof.
  induction n as [|n IH]; intros d.
  - cbn [base64 app]. change (64 ^ Z.of_nat 0) with 1. rewrite Z.div_1_r. reflexivity.
  - change (base64 (S (S n)) d) with ((d / 64 ^ Z.of_nat (S n)) mod 64 :: base64 (S n) d).
    rewrite IH. change (base64 (S n) (d / 64)) with
      ((d / 64 / 64 ^ Z.of_nat n) mod 64 :: base64 n (d / 64)).
    cbn [app]. f_equal. rewrite Z.div_div by lia.
    rewrite Nat2Z.inj_succ, Z.pow_succ_r by lia. reflexivity.
Qed.

Lemma digits6_spec : forall n d acc,
  digits6 n d acc = (base64 n d ++ acc, d / 64 ^ Z.of_nat n).
Proof.
  induction n as [|n IH]; intros d acc.
  - cbn [digits6 base64 app]. change (64 ^ Z.of_nat 0) with 1. rewrite Z.div_1_r. reflexivity.
  - cbn [digits6]. rewrite IH, base64_snoc, Z.shiftr_div_pow2, land_3F by lia.
    change (2 ^ 6) with 64. rewrite <- app_assoc. cbn [app]. f_equal.
    rewrite Z.div_div by lia. rewrite Nat2Z.inj_succ, Z.pow_succ_r by lia. reflexivity.
Qed.

Lemma pow64 : forall n, 64 ^ Z.of_nat n = 2 ^ (Z.of_nat n * 6).
Proof.
  intros n. change 64 with (2 ^ 6). rewrite <- Z.pow_mul_r by lia. f_equal. lia.
Qed.

Lemma from_base64_snoc : forall ds d, from_base64 (ds ++ [d]) = from_base64 ds * 64 + d.
Proof. intros. unfold from_base64. rewrite fold_left_app. reflexivity. Qed.

Lemma from_base64_mod : forall n d, from_base64 (base64 n d) = d mod 64 ^ Z.of_nat n.
Proof.
  induction n as [|n IH]; intros d.
  - cbn [base64]. change (64 ^ Z.of_nat 0) with 1. rewrite Z.mod_1_r. reflexivity.
  - rewrite base64_snoc, from_base64_snoc, IH.
    rewrite Nat2Z.inj_succ, Z.pow_succ_r by lia.
    rewrite (Z.rem_mul_r d 64 (64 ^ Z.of_nat n)) by (try lia; apply Z.pow_pos_nonneg; lia).
    lia.
Qed.

Lemma from_base64_range : forall ds, Forall digit ds ->
  0 <= from_base64 ds < 64 ^ Z.of_nat (length ds).
Proof.
  intros ds. induction ds as [|d ds IH] using rev_ind; intros H.
  - cbn. lia.
  - apply Forall_app in H. destruct H as [H1 H2]. inversion H2; subst.
    specialize (IH H1). rewrite from_base64_snoc, app_length.
    cbn [length]. rewrite Nat2Z.inj_add. change (Z.of_nat 1) with 1.
    rewrite Z.pow_add_r by lia. unfold digit in *. change (64 ^ 1) with 64. nia.
Qed.

Lemma make_data_spec : forall ds, Forall digit ds -> (length ds <= 10)%nat ->
  make_data ds = Ok (from_base64 ds).
Proof.
  intros ds H Hl.
  assert (fold_left (fun a b => Z.lor (u64 (Z.shiftl a 6)) (Z.land b 0x3F)) ds 0 = from_base64 ds) as E.
  { induction ds as [|d ds IH] using rev_ind; [reflexivity|].
    apply Forall_app in H. destruct H as [H1 H2]. inversion H2; subst.
    rewrite app_length in Hl. cbn [length] in Hl.
    rewrite fold_left_app, from_base64_snoc. cbn [fold_left].
    rewrite IH by (try assumption; lia).
    pose proof (from_base64_range ds H1) as R.
    assert (64 ^ Z.of_nat (length ds) <= 64 ^ 9) by (apply Z.pow_le_mono_r; lia).
    rewrite Z.shiftl_mul_pow2 by lia. change (2 ^ 6) with 64.
    unfold u64. rewrite Z.mod_small by (change (64 ^ 9) with 18014398509481984 in *; lia).
    rewrite land_3F. unfold digit in *. rewrite (Z.mod_small d) by lia.
    change 64 with (2 ^ 6) at 1. rewrite lor_add by (cbn; lia). reflexivity. }
  unfold make_data. rewrite E. pose proof (from_base64_range ds H) as R.
  rewrite <- pow64. replace (from_base64 ds <? 64 ^ Z.of_nat (length ds)) with true by (symmetry; lia).
  reflexivity.
Qed.

Lemma make_datagram_id_spec : forall i id data, 0 <= id < 16 -> 0 <= data < 2 ^ id_bits i ->
  make_datagram_id i id data = Ok (base64 (datagram_size i) (id * 2 ^ id_bits i + data)).
Proof.
  intros i id data Hid Hd. unfold make_datagram_id.
  replace (Z.of_nat (datagram_size i) * 6 - 4) with (id_bits i) by (destruct i; reflexivity).
  replace (data <? 2 ^ id_bits i) with true by (symmetry; lia).
  rewrite digits6_spec, app_nil_r. f_equal.
  assert (exists n, datagram_size i = S n /\ id_bits i = Z.of_nat n * 6 + 2) as (n & En & Ei)
    by (destruct i; [exists 1%nat|exists 2%nat|exists 3%nat|exists 5%nat|exists 7%nat]; split; reflexivity).
  rewrite En. cbn [Nat.sub]. rewrite Nat.sub_0_r. cbn [base64].
  rewrite Ei in *. rewrite Z.pow_add_r in * by lia. rewrite <- pow64 in *. change (2 ^ 2) with 4 in *.
  set (q := 64 ^ Z.of_nat n) in *. assert (0 < q) by (apply Z.pow_pos_nonneg; lia).
  assert (0 <= data / q < 4) as Hq by nia.
  f_equal.
  - rewrite land_3, (Z.mod_small (data / q)) by lia.
    rewrite lor_shiftl by (change (2 ^ 2) with 4; lia). change (2 ^ 2) with 4.
    replace (id * (q * 4) + data) with (id * 4 * q + data) by ring.
    rewrite Z.div_add_l by lia. unfold u8. rewrite !Z.mod_small by lia. reflexivity.
  - assert (forall m d k, base64 m (k * 64 ^ Z.of_nat m + d) = base64 m d) as L.
    { clear. induction m as [|m IH]; intros d k; [reflexivity|].
      cbn [base64].
      replace (k * 64 ^ Z.of_nat (S m) + d) with (k * 64 * 64 ^ Z.of_nat m + d)
        by (rewrite Nat2Z.inj_succ, Z.pow_succ_r by lia; ring).
      rewrite IH. f_equal.
      assert (0 < 64 ^ Z.of_nat m) by (apply Z.pow_pos_nonneg; lia).
      rewrite Z.div_add_l by lia. rewrite Z.add_comm, Z.mod_add by lia. reflexivity. }
    symmetry. replace (id * (q * 4) + data) with (id * 4 * q + data) by ring. apply L.
Qed.

Lemma make_datagram_spec : forall i data, 0 <= data < 2 ^ Z.of_nat (bits_val i) ->
  make_datagram i data = Ok (base64 (datagram_size i) data).
Proof.
  intros i data Hd. unfold make_datagram.
  replace (Z.of_nat (datagram_size i) * 6) with (Z.of_nat (bits_val i)) by (destruct i; reflexivity).
  replace (data <? 2 ^ Z.of_nat (bits_val i)) with true by (symmetry; lia).
  rewrite digits6_spec. cbn [fst]. rewrite app_nil_r. reflexivity.
Qed.

Lemma datagram_out_of_range : forall i id data,
  (2 ^ id_bits i <= data -> make_datagram_id i id data = UB AssertFailed) /\
  (2 ^ Z.of_nat (bits_val i) <= data -> make_datagram i data = UB AssertFailed).
Proof.
  intros i id data. unfold make_datagram_id, make_datagram. split; intros H.
  - replace (Z.of_nat (datagram_size i) * 6 - 4) with (id_bits i) by (destruct i; reflexivity).
    replace (data <? 2 ^ id_bits i) with false by (symmetry; lia). reflexivity.
  - replace (Z.of_nat (datagram_size i) * 6) with (Z.of_nat (bits_val i)) by (destruct i; reflexivity).
    replace (data <? 2 ^ Z.of_nat (bits_val i)) with false by (symmetry; lia). reflexivity.
Qed.

Lemma datagram_id_lossless : forall i id data, 0 <= id < 16 -> 0 <= data < 2 ^ id_bits i ->
  exists d c, make_datagram_id i id data = Ok d /\ encode_datagram d = Ok c /\
    length c = datagram_size i /\ make_data (decode_datagram c) = Ok (id * 2 ^ id_bits i + data).
Proof.
  intros i id data Hid Hd. eexists. 
  destruct (encode_datagram_spec (base64 (datagram_size i) (id * 2 ^ id_bits i + data)))
    as (c & E & _ & L & _ & _ & D); [apply base64_digits|].
  exists c. split; [apply make_datagram_id_spec; assumption|]. split; [exact E|].
  rewrite base64_length in L. split; [exact L|]. rewrite D.
  rewrite make_data_spec by (try apply base64_digits; rewrite base64_length; destruct i; cbn; lia).
  rewrite from_base64_mod. f_equal. apply Z.mod_small.
  rewrite pow64. replace (Z.of_nat (datagram_size i) * 6) with (4 + id_bits i) by (destruct i; reflexivity).
  rewrite Z.pow_add_r by (destruct i; cbn; lia). change (2 ^ 4) with 16. nia.
Qed.

Lemma datagram_lossless : forall i data, 0 <= data < 2 ^ Z.of_nat (bits_val i) ->
  exists d c, make_datagram i data = Ok d /\ encode_datagram d = Ok c /\
    length c = datagram_size i /\ make_data (decode_datagram c) = Ok data.
Proof.
  intros i data Hd. eexists.
  destruct (encode_datagram_spec (base64 (datagram_size i) data))
    as (c & E & _ & L & _ & _ & D); [apply base64_digits|].
  exists c. split; [apply make_datagram_spec; assumption|]. split; [exact E|].
  rewrite base64_length in L. split; [exact L|]. rewrite D.
  rewrite make_data_spec by (try apply base64_digits; rewrite base64_length; destruct i; cbn; lia).
  rewrite from_base64_mod. f_equal. apply Z.mod_small.
  rewrite pow64. replace (Z.of_nat (datagram_size i) * 6) with (Z.of_nat (bits_val i))
    by (destruct i; reflexivity). assumption.
Qed.

(** ** Speed *)

Lemma scale_speed_table : forall n, In n [14; 28; 126] ->
  scale_speed n 0 = 0 /\ scale_speed n 1 = 2 /\ scale_speed n n = 255 /\
  (forall s, 0 <= s < n -> scale_speed n s < scale_speed n (s + 1)).
Proof.
  intros n Hn.
  assert (forallb (fun s => scale_speed n s <? scale_speed n (s + 1)) (zseq 0 (Z.to_nat n)) = true) as H
    by (destruct Hn as [<-|[<-|[<-|[]]]]; vm_compute; reflexivity).
  split; [destruct Hn as [<-|[<-|[<-|[]]]]; reflexivity|].
  split; [destruct Hn as [<-|[<-|[<-|[]]]]; reflexivity|].
  split; [destruct Hn as [<-|[<-|[<-|[]]]]; reflexivity|].
  intros s Hs. apply Z.ltb_lt. apply (sweep _ 0 (Z.to_nat n) H). lia.
Qed.

(** The value of every step, in closed form: linear from (1,2) resp. (0,0) to (n,255), rounded down *)
Lemma scale_speed_value : forall n s, In n [14; 28; 126] -> 0 <= s <= n ->
  scale_speed n s = if s =? 0 then 0
                    else if n =? 126 then 255 * s / 126
                    else 2 + 253 * (s - 1) / (n - 1).
Proof.
  intros n s Hn Hs. apply Z.eqb_eq.
  apply (sweep (fun s => scale_speed n s =? (if s =? 0 then 0
                    else if n =? 126 then 255 * s / 126
                    else 2 + 253 * (s - 1) / (n - 1))) 0 (Z.to_nat (n + 1)));
    [|rewrite Z2Nat.id by (destruct Hn as [<-|[<-|[<-|[]]]]; lia); lia].
  destruct Hn as [<-|[<-|[<-|[]]]]; vm_compute; reflexivity.
Qed.

Lemma scale_speed_mono : forall n, In n [14; 28; 126] -> forall s t, 0 <= s < t -> t <= n ->
  scale_speed n s < scale_speed n t.
Proof.
  intros n Hn s t Hs Ht. destruct (scale_speed_table n Hn) as (_ & _ & _ & Hm).
  assert (forall k, 0 <= k -> s + k + 1 <= n -> scale_speed n s < scale_speed n (s + k + 1)) as L.
  { apply (natlike_ind (fun k => s + k + 1 <= n -> scale_speed n s < scale_speed n (s + k + 1))).
    - intros H. rewrite Z.add_0_r. apply Hm. lia.
    - intros k Hk IH H. specialize (IH ltac:(lia)).
      specialize (Hm (s + k + 1) ltac:(lia)).
      replace (s + Z.succ k + 1) with (s + k + 1 + 1) by lia. lia. }
  specialize (L (t - s - 1) ltac:(lia)). replace (s + (t - s - 1) + 1) with t in L by lia.
  apply L. lia.
Qed.

Lemma scale_speed_range : forall n, In n [14; 28; 126] -> forall s, 0 <= s <= n ->
  0 <= scale_speed n s <= 255.
Proof.
  intros n Hn s Hs. destruct (scale_speed_table n Hn) as (H0 & _ & Htop & _).
  destruct (Z.eq_dec s 0) as [->|]; [lia|].
  pose proof (scale_speed_mono n Hn 0 s ltac:(lia) ltac:(lia)).
  destruct (Z.eq_dec s n) as [->|]; [lia|].
  pose proof (scale_speed_mono n Hn s n ltac:(lia) ltac:(lia)). lia.
Qed.

(** ** Packets *)

Lemma wire_head_byte : forall v, 0 <= v <= 10239 -> Forall byte (wire_head v).
Proof.
  intros v Hv. unfold wire_head. destruct (v <=? 127) eqn:E;
    repeat constructor; unfold byte; lia.
Qed.

Lemma wire_head_length : forall v, (1 <= length (wire_head v) <= 2)%nat.
Proof. intros v. unfold wire_head. destruct (v <=? 127); cbn; lia. Qed.

Lemma encode_loco : forall v, 0 <= v <= 10239 -> encode_address (loco v) = Ok (wire_head v).
Proof.
  intros v Hv. unfold loco, wire_head. destruct (v <=? 127) eqn:E.
  - apply address_wire_format; lia.
  - apply encode_long; lia.
Qed.

Lemma seal_spec : forall bs, Forall byte bs -> (length bs < 18)%nat ->
  seal bs = Ok (bs ++ [xor_all bs]).
Proof.
  intros bs H Hl. unfold seal. rewrite exor_spec by assumption.
  rewrite app_length. cbn [length]. unfold max_packet_size.
  replace ((length bs + 1 <=? 18)%nat) with true by (symmetry; apply Nat.leb_le; lia).
  reflexivity.
Qed.

Lemma frame_length : forall v payload,
  length (frame v payload) = (length (wire_head v) + length payload + 1)%nat.
Proof. intros. unfold frame. rewrite !app_length. cbn [length]. lia. Qed.

Lemma frame_xor : forall v payload, xor_all (frame v payload) = 0.
Proof. intros. unfold frame. rewrite app_assoc. apply xor_all_snoc. Qed.

Lemma frame_byte : forall v payload, 0 <= v <= 10239 -> Forall byte payload ->
  Forall byte (frame v payload).
Proof.
  intros v payload Hv Hp. unfold frame. pose proof (wire_head_byte v Hv).
  repeat (apply Forall_app; split); try assumption. constructor; [|constructor].
  apply xor_all_byte. apply Forall_app. split; assumption.
Qed.

Lemma frame_address : forall v payload, 0 <= v <= 10239 ->
  decode_address (frame v payload) = Ok (wire_address v).
Proof.
  intros v payload Hv. unfold frame, wire_head, wire_address.
  destruct (v <=? 127) eqn:E; cbn [app].
  - rewrite decode_first by (unfold byte; lia). f_equal. f_equal. unfold first_byte_class.
    destruct (v =? 0); [reflexivity|]. destruct (v <? 128) eqn:E'; [reflexivity|lia].
  - rewrite decode_long by (unfold byte; lia).
    replace (v =? 0) with false by (symmetry; lia).
    apply f_equal. apply (f_equal (fun x => Addr x ATLong false)). lia.
Qed.

Lemma frame_instruction : forall v i payload, 0 <= v <= 10239 -> Forall byte (i :: payload) ->
  decode_instruction_packet (frame v (i :: payload)) = Ok (nibble_class (i / 16)).
Proof.
  intros v i payload Hv Hp. pose proof (frame_byte v (i :: payload) Hv Hp) as Hf.
  unfold frame, wire_head in *. destruct (v <=? 127) eqn:E; cbn [app] in *.
  - rewrite (decode_instruction_packet_spec _ v Hf eq_refl).
    replace (128 <=? v) with false by (symmetry; lia). reflexivity.
  - rewrite (decode_instruction_packet_spec _ (192 + v / 256) Hf eq_refl).
    replace (128 <=? 192 + v / 256) with true by (symmetry; lia).
    replace (192 + v / 256 <? 253) with true by (symmetry; lia). reflexivity.
Qed.

Lemma frame_inj : forall v w p q, 0 <= v <= 10239 -> 0 <= w <= 10239 ->
  frame v p = frame w q -> v = w /\ p = q.
Proof.
  intros v w p q Hv Hw H.
  pose proof (frame_address v p Hv) as A. pose proof (frame_address w q Hw) as B.
  rewrite H, B in A. apply Ok_inj in A. apply (f_equal aval) in A. cbn [aval wire_address] in A.
  subst w. split; [reflexivity|]. unfold frame in H. apply app_inv_head in H.
  apply app_inj_tail in H. apply H.
Qed.

Lemma frame_closed : forall v p, frame v p = closed (wire_head v ++ p).
Proof. intros. unfold frame, closed. apply app_assoc. Qed.

(** Payload bytes built with bit operations, in arithmetic form *)
Lemma cv_op_spec : forall op cv, In op [0xE4; 0xEC; 0xE8; 0x74; 0x7C; 0x78] -> 0 <= cv < 1024 ->
  cv_op op cv = op + cv / 256.
Proof.
  intros op cv Hop Hcv. unfold cv_op. rewrite land_3FF, Z.mod_small, Z.shiftr_div_pow2 by lia.
  change (2 ^ 8) with 256. assert (0 <= cv / 256 < 4) as H by lia.
  remember (cv / 256) as h. clear Heqh. apply Z.eqb_eq.
  apply (sweep (fun h => u8 (Z.lor op h) =? op + h) 0 4); [|lia].
  repeat destruct Hop as [<-|Hop]; try contradiction; reflexivity.
Qed.

Lemma cv_bit_data_spec : forall op bit pos, In op [0xE0; 0xF0] -> 0 <= pos < 8 ->
  cv_bit_data op bit pos = op + 8 * Z.b2z bit + pos.
Proof.
  intros op bit pos Hop Hpos. apply Z.eqb_eq.
  apply (sweep (fun pos => cv_bit_data op bit pos =? op + 8 * Z.b2z bit + pos) 0 8); [|lia].
  destruct bit; repeat destruct Hop as [<-|Hop]; try contradiction; reflexivity.
Qed.

Lemma lor_sweep : forall c k s, (forallb (fun s => u8 (Z.lor c s) =? c + s) (zseq 0 k) = true) ->
  0 <= s < Z.of_nat k -> u8 (Z.lor c s) = c + s.
Proof. intros c k s H Hs. apply Z.eqb_eq. apply (sweep _ 0 k H). lia. Qed.

Section Generators.
  Variables (a : address) (h : list Z).
  Hypotheses (Ha : encode_address a = Ok h) (Hh : Forall byte h) (Hlh : (length h <= 2)%nat).

  Lemma make_packet_head : forall payload, Forall byte payload -> (length payload <= 15)%nat ->
    make_packet a payload = Ok (closed (h ++ payload)).
  Proof.
    intros payload Hp Hl. unfold make_packet. rewrite Ha. cbn [rbind]. apply seal_spec.
    - apply Forall_app. split; assumption.
    - rewrite app_length. lia.
  Qed.

  Lemma gen_126 : forall s, byte s ->
    make_advanced_operations_speed_packet a s = Ok (closed (h ++ [0x3F; s])).
  Proof.
    intros. apply make_packet_head; [|cbn; lia].
    repeat constructor; unfold byte, u8 in *; lia.
  Qed.

  Lemma gen_sdf : forall s f fs, byte s -> byte f -> (length fs <= 3)%nat -> Forall byte fs ->
    make_advanced_operations_speed_direction_and_functions_packet a s f fs
    = Ok (closed (h ++ (0x3C :: s :: f :: fs))).
  Proof.
    intros s f fs Hs Hf Hl Hfs.
    unfold make_advanced_operations_speed_direction_and_functions_packet.
    replace (map u8 fs) with fs.
    - apply make_packet_head; [|cbn; lia].
      repeat (constructor; [unfold byte in *; lia|]). assumption.
    - clear Hl. induction Hfs; [reflexivity|]. cbn [map]. rewrite <- IHHfs, u8_id by assumption.
      reflexivity.
  Qed.

  Lemma gen_basic : forall s, 0 <= s < 64 ->
    make_speed_and_direction_packet a s = Ok (closed (h ++ [0x40 + s])).
  Proof.
    intros s Hs. unfold make_speed_and_direction_packet.
    rewrite (lor_sweep 0x40 64) by (reflexivity || (cbn; lia)).
    apply make_packet_head; [|cbn; lia]. repeat constructor; unfold byte; lia.
  Qed.

  (** [s] has F0 in bit 0 .. F4 in bit 4 *)
  Lemma gen_f4_f0 : forall s, 0 <= s < 32 ->
    make_function_group_f4_f0_packet a s = Ok (closed (h ++ [0x80 + 16 * (s mod 2) + s / 2])).
  Proof.
    intros s Hs. unfold make_function_group_f4_f0_packet.
    assert (u8 (Z.lor (Z.lor 0x80 (Z.shiftl (Z.land s 1) 4)) (Z.shiftr (Z.land s 0x1F) 1))
            = 0x80 + 16 * (s mod 2) + s / 2) as ->.
    { apply Z.eqb_eq.
      apply (sweep (fun s => u8 (Z.lor (Z.lor 0x80 (Z.shiftl (Z.land s 1) 4)) (Z.shiftr (Z.land s 0x1F) 1))
            =? 0x80 + 16 * (s mod 2) + s / 2) 0 32); [reflexivity|lia]. }
    apply make_packet_head; [|cbn; lia]. repeat constructor; unfold byte; lia.
  Qed.

  Lemma gen_f8_f5 : forall s, 0 <= s < 16 ->
    make_function_group_f8_f5_packet a s = Ok (closed (h ++ [0xB0 + s])).
  Proof.
    intros s Hs. unfold make_function_group_f8_f5_packet. rewrite land_0F, Z.mod_small by lia.
    rewrite (lor_sweep 0xB0 16) by (reflexivity || (cbn; lia)).
    apply make_packet_head; [|cbn; lia]. repeat constructor; unfold byte; lia.
  Qed.

  Lemma gen_f12_f9 : forall s, 0 <= s < 16 ->
    make_function_group_f12_f9_packet a s = Ok (closed (h ++ [0xA0 + s])).
  Proof.
    intros s Hs. unfold make_function_group_f12_f9_packet. rewrite land_0F, Z.mod_small by lia.
    rewrite (lor_sweep 0xA0 16) by (reflexivity || (cbn; lia)).
    apply make_packet_head; [|cbn; lia]. repeat constructor; unfold byte; lia.
  Qed.

  Lemma gen_f20_f13 : forall s, byte s ->
    make_feature_expansion_f20_f13_packet a s = Ok (closed (h ++ [0xDE; s])).
  Proof. intros. apply make_packet_head; [|cbn; lia].
    repeat constructor; unfold byte, u8 in *; lia. Qed.

  Lemma gen_f28_f21 : forall s, byte s ->
    make_feature_expansion_f28_f21_packet a s = Ok (closed (h ++ [0xDF; s])).
  Proof. intros. apply make_packet_head; [|cbn; lia].
    repeat constructor; unfold byte, u8 in *; lia. Qed.

  Lemma gen_binary_short : forall s, byte s ->
    make_binary_state_short_packet a s = Ok (closed (h ++ [0xDD; s])).
  Proof. intros. apply make_packet_head; [|cbn; lia].
    repeat constructor; unfold byte, u8 in *; lia. Qed.

  Lemma gen_binary_long : forall s hi, byte s -> byte hi ->
    make_binary_state_long_packet a s hi = Ok (closed (h ++ [0xC0; s; hi])).
  Proof. intros. apply make_packet_head; [|cbn; lia].
    repeat constructor; unfold byte, u8 in *; lia. Qed.

  Lemma gen_cv_verify : forall cv b, 0 <= cv < 1024 -> byte b ->
    make_cv_access_long_verify_packet a cv b = Ok (closed (h ++ [0xE4 + cv / 256; cv mod 256; b])).
  Proof.
    intros cv b Hcv Hb. unfold make_cv_access_long_verify_packet.
    rewrite cv_op_spec by (cbn; auto 7). apply make_packet_head; [|cbn; lia].
    repeat constructor; unfold byte, u8 in *; lia.
  Qed.

  Lemma gen_cv_write : forall cv b, 0 <= cv < 1024 -> byte b ->
    make_cv_access_long_write_packet a cv b = Ok (closed (h ++ [0xEC + cv / 256; cv mod 256; b])).
  Proof.
    intros cv b Hcv Hb. unfold make_cv_access_long_write_packet.
    rewrite cv_op_spec by (cbn; auto 7). apply make_packet_head; [|cbn; lia].
    repeat constructor; unfold byte, u8 in *; lia.
  Qed.

  Lemma gen_cv_verify_bit : forall cv bit pos, 0 <= cv < 1024 -> 0 <= pos < 8 ->
    make_cv_access_long_verify_bit_packet a cv bit pos
    = Ok (closed (h ++ [0xE8 + cv / 256; cv mod 256; 0xE0 + 8 * Z.b2z bit + pos])).
  Proof.
    intros cv bit pos Hcv Hpos. unfold make_cv_access_long_verify_bit_packet.
    rewrite cv_op_spec, cv_bit_data_spec by (cbn; auto 7).
    apply make_packet_head; [|cbn; lia].
    repeat constructor; unfold byte, u8 in *; destruct bit; cbn [Z.b2z]; lia.
  Qed.

  Lemma gen_cv_write_bit : forall cv bit pos, 0 <= cv < 1024 -> 0 <= pos < 8 ->
    make_cv_access_long_write_bit_packet a cv bit pos
    = Ok (closed (h ++ [0xE8 + cv / 256; cv mod 256; 0xF0 + 8 * Z.b2z bit + pos])).
  Proof.
    intros cv bit pos Hcv Hpos. unfold make_cv_access_long_write_bit_packet.
    rewrite cv_op_spec, cv_bit_data_spec by (cbn; auto 7).
    apply make_packet_head; [|cbn; lia].
    repeat constructor; unfold byte, u8 in *; destruct bit; cbn [Z.b2z]; lia.
  Qed.
End Generators.


(** The generator of each command *)
Definition generate (a : address) (c : loco_cmd) : res (list Z) :=
  match c with
  | CSpeed126 s => make_advanced_operations_speed_packet a s
  | CSpeedFunctions s f more =>
      make_advanced_operations_speed_direction_and_functions_packet a s f more
  | CSpeed28 s => make_speed_and_direction_packet a s
  | CF4_F0 s => make_function_group_f4_f0_packet a s
  | CF8_F5 s => make_function_group_f8_f5_packet a s
  | CF12_F9 s => make_function_group_f12_f9_packet a s
  | CF20_F13 s => make_feature_expansion_f20_f13_packet a s
  | CF28_F21 s => make_feature_expansion_f28_f21_packet a s
  | CBinaryShort d => make_binary_state_short_packet a d
  | CBinaryLong d h => make_binary_state_long_packet a d h
  | CVerify cv b => make_cv_access_long_verify_packet a cv b
  | CWrite cv b => make_cv_access_long_write_packet a cv b
  | CVerifyBit cv bit pos => make_cv_access_long_verify_bit_packet a cv bit pos
  | CWriteBit cv bit pos => make_cv_access_long_write_bit_packet a cv bit pos
  end.

Lemma payload_byte : forall c, cmd_ok c -> Forall byte (payload c).
Proof.
  intros c Hc. destruct c; cbn [cmd_ok payload] in *;
    repeat match goal with H : _ /\ _ |- _ => destruct H end;
    repeat (apply Forall_cons; [unfold byte in *; try destruct bit; cbn [Z.b2z]; lia|]);
    try apply Forall_nil; assumption.
Qed.

Lemma generate_head : forall a h, encode_address a = Ok h -> Forall byte h -> (length h <= 2)%nat ->
  forall c, cmd_ok c -> generate a c = Ok (closed (h ++ payload c)).
Proof.
  intros a h Ha Hh Hl c Hc. destruct c; cbn [cmd_ok generate payload] in *;
    repeat match goal with H : _ /\ _ |- _ => destruct H end.
  - apply gen_126; (assumption || lia).
  - apply gen_sdf; (assumption || lia).
  - apply gen_basic; (assumption || lia).
  - apply gen_f4_f0; (assumption || lia).
  - apply gen_f8_f5; (assumption || lia).
  - apply gen_f12_f9; (assumption || lia).
  - apply gen_f20_f13; (assumption || lia).
  - apply gen_f28_f21; (assumption || lia).
  - apply gen_binary_short; (assumption || lia).
  - apply gen_binary_long; (assumption || lia).
  - apply gen_cv_verify; (assumption || lia).
  - apply gen_cv_write; (assumption || lia).
  - apply gen_cv_verify_bit; (assumption || lia).
  - apply gen_cv_write_bit; (assumption || lia).
Qed.

Lemma generate_frame : forall v c, 0 <= v <= 10239 -> cmd_ok c ->
  generate (loco v) c = Ok (frame v (payload c)).
Proof.
  intros v c Hv Hc. rewrite frame_closed. apply generate_head; try assumption.
  - apply encode_loco; assumption.
  - apply wire_head_byte; assumption.
  - apply wire_head_length.
Qed.

Lemma generate_long : forall v r c, 0 <= v <= 10239 -> cmd_ok c ->
  generate (Addr v ATLong r) c = Ok (closed ([192 + v / 256; v mod 256] ++ payload c)).
Proof.
  intros v r c Hv Hc. apply generate_head; try assumption.
  - apply encode_long; lia.
  - repeat constructor; unfold byte; lia.
  - cbn; lia.
Qed.

Lemma payload_class : forall c, cmd_ok c -> exists i rest,
  payload c = i :: rest /\ nibble_class (i / 16) = cmd_class c.
Proof.
  intros c Hc. destruct c; cbn [cmd_ok payload cmd_class] in *;
    repeat match goal with H : _ /\ _ |- _ => destruct H end;
    do 2 eexists; (split; [reflexivity|]); try reflexivity;
    match goal with |- nibble_class (?e / 16) = _ =>
      first [ replace (e / 16) with 14 by lia; reflexivity
            | replace (e / 16) with 11 by lia; reflexivity
            | replace (e / 16) with 10 by lia; reflexivity
            | idtac ] end.
  - assert (e_ : (0x40 + s) / 16 = 4 \/ (0x40 + s) / 16 = 5 \/ (0x40 + s) / 16 = 6 \/ (0x40 + s) / 16 = 7)
      by lia. repeat destruct e_ as [e_|e_]; rewrite e_; reflexivity.
  - assert (e_ : (0x80 + 16 * (s mod 2) + s / 2) / 16 = 8 \/ (0x80 + 16 * (s mod 2) + s / 2) / 16 = 9)
      by lia. destruct e_ as [e_|e_]; rewrite e_; reflexivity.
Qed.

Lemma generate_describes : forall v c, 0 <= v <= 10239 -> cmd_ok c -> exists p,
  generate (loco v) c = Ok p /\ p = frame v (payload c) /\
  length p = (length (wire_head v) + length (payload c) + 1)%nat /\ (length p <= 18)%nat /\
  Forall byte p /\ decode_address p = Ok (wire_address v) /\
  decode_instruction_packet p = Ok (cmd_class c) /\ xor_all p = 0.
Proof.
  intros v c Hv Hc. exists (frame v (payload c)).
  split; [apply generate_frame; assumption|]. split; [reflexivity|].
  split; [apply frame_length|]. split.
  { rewrite frame_length. pose proof (wire_head_length v).
    assert (length (payload c) <= 6)%nat
      by (destruct c; cbn [payload length cmd_ok] in *; lia). lia. }
  split; [apply frame_byte; [assumption|apply payload_byte; assumption]|].
  split; [apply frame_address; assumption|]. split; [|apply frame_xor].
  pose proof (payload_byte c Hc) as Hb.
  destruct (payload_class c Hc) as (i & rest & E & K). rewrite E in *.
  rewrite frame_instruction by assumption. rewrite K. reflexivity.
Qed.

Lemma cons_inj : forall (x y : Z) xs ys, x :: xs = y :: ys -> x = y /\ xs = ys.
Proof. intros x y xs ys H. inversion H. split; reflexivity. Qed.

Lemma payload_inj : forall c d, cmd_ok c -> cmd_ok d -> payload c = payload d -> c = d.
Proof.
  intros c d Hc Hd H.
  destruct c, d; cbn [cmd_ok payload] in *; unfold byte in *;
    repeat match goal with
      | H : _ :: _ = _ :: _ |- _ => apply cons_inj in H; destruct H
      | H : _ /\ _ |- _ => destruct H
      | H : _ :: _ = [] |- _ => discriminate H
      | H : [] = _ :: _ |- _ => discriminate H
      | b : bool |- _ => destruct b
      end; cbn [Z.b2z] in *; try (exfalso; lia);
    try (apply f_equal; lia);
    try (match goal with |- ?C ?x ?y = ?C ?x' ?y' =>
           replace x' with x by lia; replace y' with y by lia; reflexivity end);
    try (match goal with |- ?C ?x ?b ?y = ?C ?x' ?b ?y' =>
           replace x' with x by lia; replace y' with y by lia; reflexivity end).
  subst. reflexivity.
Qed.

Lemma generate_inj : forall v w c d p, 0 <= v <= 10239 -> 0 <= w <= 10239 -> cmd_ok c -> cmd_ok d ->
  generate (loco v) c = Ok p -> generate (loco w) d = Ok p -> v = w /\ c = d.
Proof.
  intros v w c d p Hv Hw Hc Hd H1 H2.
  rewrite generate_frame in H1, H2 by assumption. apply Ok_inj in H1, H2. subst p.
  symmetry in H2. apply frame_inj in H2; [|assumption|assumption]. destruct H2 as [E1 E2].
  split; [assumption|]. apply payload_inj; assumption.
Qed.

Lemma gen_service : forall cv b bit pos, 0 <= cv < 1024 -> byte b -> 0 <= pos < 8 ->
  make_cv_access_long_verify_service_packet cv b = Ok (closed [0x74 + cv / 256; cv mod 256; b]) /\
  make_cv_access_long_write_service_packet cv b = Ok (closed [0x7C + cv / 256; cv mod 256; b]) /\
  make_cv_access_long_verify_bit_service_packet cv bit pos
    = Ok (closed [0x78 + cv / 256; cv mod 256; 0xE0 + 8 * Z.b2z bit + pos]) /\
  make_cv_access_long_write_bit_service_packet cv bit pos
    = Ok (closed [0x78 + cv / 256; cv mod 256; 0xF0 + 8 * Z.b2z bit + pos]).
Proof.
  intros cv b bit pos Hcv Hb Hpos.
  unfold make_cv_access_long_verify_service_packet, make_cv_access_long_write_service_packet,
    make_cv_access_long_verify_bit_service_packet, make_cv_access_long_write_bit_service_packet.
  rewrite !cv_op_spec, !cv_bit_data_spec by (cbn; auto 7).
  repeat split; apply seal_spec; try (cbn; lia);
    repeat constructor; unfold byte, u8 in *; destruct bit; cbn [Z.b2z]; lia.
Qed.

Lemma gen_idle_reset : make_idle_packet = closed [0xFF; 0x00] /\ make_reset_packet = closed [0x00; 0x00].
Proof. split; reflexivity. Qed.

Lemma group_val_range : forall g, 0 <= group_val g < 4.
Proof. destruct g; cbn; lia. Qed.

Lemma gen_logon_enable : forall g cid sid, 0 <= cid < 65536 -> byte sid ->
  make_logon_enable_packet g cid sid
  = Ok (closed [254; 252 + group_val g; cid / 256; cid mod 256; sid]).
Proof.
  intros g cid sid Hc Hs. unfold make_logon_enable_packet, make_packet. cbn [encode_address atyp rbind].
  rewrite uint16_2data_spec by assumption. cbn [app].
  replace (u8 (Z.lor 0xFC (group_val g))) with (252 + group_val g) by (destruct g; reflexivity).
  apply seal_spec; [|cbn; lia]. pose proof (group_val_range g).
  repeat constructor; unfold byte, u8 in *; lia.
Qed.

Lemma seal_crc_spec : forall bs, Forall byte bs -> (length bs < 17)%nat ->
  seal_crc bs = Ok (extended bs).
Proof.
  intros bs Hb Hl. unfold seal_crc, extended, closed. rewrite crc8_serial by assumption.
  apply seal_spec.
  - apply Forall_app. split; [assumption|]. constructor; [|constructor].
    rewrite <- crc8_serial by assumption. apply crc8_range. assumption.
  - rewrite app_length. cbn [length]. lia.
Qed.

Lemma lor_hi : forall c m, In c [0xD0; 0xE0] -> 0 <= m < 4096 ->
  u8 (Z.lor c (Z.shiftr m 8)) = c + m / 256.
Proof.
  intros c m Hc Hm. rewrite Z.shiftr_div_pow2 by lia. change (2 ^ 8) with 256.
  apply (lor_sweep c 16); [|cbn; lia].
  repeat destruct Hc as [<-|Hc]; try contradiction; reflexivity.
Qed.

Lemma gen_logon_select : forall m did sub, 0 <= m < 4096 -> 0 <= did < 2 ^ 32 -> byte sub ->
  make_logon_select_packet m did sub
  = Ok (extended [254; 0xD0 + m / 256; m mod 256; did / 2 ^ 24; (did / 2 ^ 16) mod 256;
                  (did / 256) mod 256; did mod 256; sub]).
Proof.
  intros m d sub Hm Hd Hs. unfold make_logon_select_packet. cbn [encode_address atyp rbind].
  rewrite uint32_2data_spec, lor_hi by (cbn; auto). cbn [app].
  apply seal_crc_spec; [|cbn; lia].
  change (2 ^ 32) with 4294967296 in *. change (2 ^ 24) with 16777216. change (2 ^ 16) with 65536.
  repeat constructor; unfold byte, u8 in *; lia.
Qed.

Lemma gen_logon_assign : forall m did addr, 0 <= m < 4096 -> 0 <= did < 2 ^ 32 -> 0 <= addr < 65536 ->
  make_logon_assign_packet m did addr
  = Ok (extended [254; 0xE0 + m / 256; m mod 256; did / 2 ^ 24; (did / 2 ^ 16) mod 256;
                  (did / 256) mod 256; did mod 256; addr / 256; addr mod 256]).
Proof.
  intros m d addr Hm Hd Hs. unfold make_logon_assign_packet. cbn [encode_address atyp rbind].
  rewrite uint32_2data_spec, uint16_2data_spec, lor_hi by (cbn; auto). cbn [app].
  apply seal_crc_spec; [|cbn; lia].
  change (2 ^ 32) with 4294967296 in *. change (2 ^ 24) with 16777216. change (2 ^ 16) with 65536.
  repeat constructor; unfold byte, u8 in *; lia.
Qed.

(** ** Timings *)

Lemma testbit_mod2 : forall b i, 0 <= i -> Z.testbit b i = ((b / 2 ^ i) mod 2 =? 1).
Proof.
  intros b i Hi. destruct (Z.testbit b i) eqn:E.
  - apply Z.testbit_true in E; [|assumption]. rewrite E. reflexivity.
  - apply Z.testbit_false in E; [|assumption]. rewrite E. reflexivity.
Qed.

Lemma timings_length : forall d1 d0 n bs,
  length (half_bits d1 d0 (track_bits n bs)) = (2 * (n + 9 * length bs + 1))%nat.
Proof.
  intros d1 d0 n bs. unfold half_bits.
  assert (forall (f : bool -> list Z) xs, (forall x, length (f x) = 2%nat) ->
            length (flat_map f xs) = 2 * length xs)%nat as L2.
  { intros f xs Hf. induction xs as [|x xs IH]; [reflexivity|]. cbn [flat_map].
    rewrite app_length, IH, Hf. cbn [length]. lia. }
  rewrite L2 by reflexivity. unfold track_bits. rewrite !app_length, repeat_length. cbn [length].
  assert (length (flat_map (fun b => false :: msb_first b) bs) = 9 * length bs)%nat as L3.
  { clear. induction bs as [|b bs IH]; [reflexivity|].
    cbn [flat_map]. rewrite app_length, IH. cbn [length msb_first map]. lia. }
  rewrite L3. lia.
Qed.

Lemma bytes2timings_spec : forall bs cfg, (length bs <= 18)%nat -> 0 <= num_preamble cfg <= 255 ->
  bytes2timings bs cfg =
  Ok (half_bits (bit1_duration cfg) (bit0_duration cfg)
        (track_bits (Z.to_nat (num_preamble cfg)) bs)).
Proof.
  intros bs cfg Hl Hp. unfold bytes2timings.
  set (d1 := bit1_duration cfg). set (d0 := bit0_duration cfg).
  set (t := repeat d1 _ ++ _ ++ _).
  assert (t = half_bits d1 d0 (track_bits (Z.to_nat (num_preamble cfg)) bs)) as E.
  { unfold t, half_bits, track_bits. rewrite !flat_map_app. f_equal; [|f_equal].
    - replace (Z.to_nat (num_preamble cfg * 2)) with (Z.to_nat (num_preamble cfg) * 2)%nat by lia.
      induction (Z.to_nat (num_preamble cfg)) as [|n IH]; [reflexivity|].
      cbn [Nat.mul Nat.add repeat flat_map app]. rewrite IH. reflexivity.
    - clear. induction bs as [|b bs IH]; [reflexivity|].
      cbn [flat_map]. rewrite flat_map_app, IH. f_equal.
      unfold byte_timings, bit_timings, msb_first. cbn [flat_map map repeat app].
      rewrite !testbit_mod2 by lia. reflexivity. }
  rewrite E.
  rewrite timings_length. unfold timings_capacity, max_packet_size.
  replace (2 * (Z.to_nat (num_preamble cfg) + 9 * length bs + 1) <=? (255 + 1 + 18 * (8 + 1)) * 2)%nat
    with true by (symmetry; apply Nat.leb_le; lia).
  reflexivity.
Qed.


(** ** Linearity of the CRC *)

Lemma crc8_byte_linear : forall a b, byte a -> byte b ->
  crc8_byte (Z.lxor a b) = Z.lxor (crc8_byte a) (crc8_byte b).
Proof.
  intros a b Ha Hb. apply Z.eqb_eq.
  apply (sweep88 (fun a b => crc8_byte (Z.lxor a b) =? Z.lxor (crc8_byte a) (crc8_byte b)));
    [vm_compute; reflexivity|assumption|assumption].
Qed.

Lemma crc8_linear : forall m n, Forall byte m -> Forall byte n -> length m = length n ->
  crc8 (xor_pairs m n) = Z.lxor (crc8 m) (crc8 n).
Proof.
  assert (forall m n s t, Forall byte m -> Forall byte n -> length m = length n -> byte s -> byte t ->
    fold_left (fun a b => crc8_byte (u8 (Z.lxor a b))) (xor_pairs m n) (Z.lxor s t)
    = Z.lxor (fold_left (fun a b => crc8_byte (u8 (Z.lxor a b))) m s)
             (fold_left (fun a b => crc8_byte (u8 (Z.lxor a b))) n t)) as L.
  { induction m as [|x m IH]; intros [|y n] s t Hm Hn E Hs Ht; try discriminate; [reflexivity|].
    inversion Hm; inversion Hn; subst. cbn [xor_pairs fold_left].
    replace (crc8_byte (u8 (Z.lxor (Z.lxor s t) (Z.lxor x y))))
      with (Z.lxor (crc8_byte (u8 (Z.lxor s x))) (crc8_byte (u8 (Z.lxor t y)))).
    - apply IH; try assumption; try (cbn in E; lia);
        rewrite u8_id by (apply lxor_byte; assumption); apply crc8_byte_range;
        apply lxor_byte; assumption.
    - rewrite !u8_id by (repeat apply lxor_byte; assumption).
      rewrite <- crc8_byte_linear by (apply lxor_byte; assumption). f_equal.
      rewrite !Z.lxor_assoc. f_equal. rewrite <- !Z.lxor_assoc. f_equal. apply Z.lxor_comm. }
  intros m n Hm Hn E. unfold crc8. rewrite <- L; try assumption; try (unfold byte; lia).
  reflexivity.
Qed.

(** ** Corollaries used as property theorems *)

Lemma addr_eqb_equivalence :
  (forall a, addr_eqb a a = true) /\
  (forall a b, addr_eqb a b = addr_eqb b a) /\
  (forall a b c, addr_eqb a b = true -> addr_eqb b c = true -> addr_eqb a c = true) /\
  (forall v w t u r s, addr_eqb (Addr v t r) (Addr w u s) = addr_eqb (Addr v t false) (Addr w u false)) /\
  (forall v w, addr_eqb (Addr v ATShort false) (Addr w ATLong false) = true <-> v = w).
Proof.
  split; [|split; [|split; [|split]]].
  - intros a. apply addr_eqb_spec. auto.
  - intros a b. destruct (addr_eqb a b) eqn:E, (addr_eqb b a) eqn:F; try reflexivity; exfalso.
    + apply addr_eqb_spec in E. assert (addr_eqb b a = true) as G; [|congruence].
      apply addr_eqb_spec. intuition.
    + apply addr_eqb_spec in F. assert (addr_eqb a b = true) as G; [|congruence].
      apply addr_eqb_spec. intuition.
  - intros a b c H1 H2. apply addr_eqb_spec in H1, H2. apply addr_eqb_spec.
    destruct H1 as [V1 T1], H2 as [V2 T2]. split; [congruence|].
    destruct T1 as [T1|[T1 T1']], T2 as [T2|[T2 T2']].
    + left. congruence.
    + right. rewrite T1. auto.
    + right. rewrite <- T2. auto.
    + right. auto.
  - reflexivity.
  - intros v w. rewrite addr_eqb_spec. cbn. intuition.
Qed.

Lemma closed_xor : forall bs, xor_all (closed bs) = 0.
Proof. apply xor_all_snoc. Qed.

Lemma closed_inj : forall a b, closed a = closed b -> a = b.
Proof. intros a b H. apply app_inj_tail in H. apply H. Qed.

Lemma gen_fixed_classes :
  decode_address make_idle_packet = Ok (Addr 255 ATIdle false) /\
  decode_address make_reset_packet = Ok (Addr 0 ATBroadcast false) /\
  decode_instruction_packet make_reset_packet = Ok IDecoderControl.
Proof. repeat split. Qed.

Lemma logon_enable_inj : forall g cid sid g' cid' sid' p,
  0 <= cid < 65536 -> byte sid -> 0 <= cid' < 65536 -> byte sid' ->
  make_logon_enable_packet g cid sid = Ok p -> make_logon_enable_packet g' cid' sid' = Ok p ->
  g = g' /\ cid = cid' /\ sid = sid'.
Proof.
  intros g cid sid g' cid' sid' p H1 H2 H3 H4 E1 E2.
  rewrite gen_logon_enable in E1, E2 by assumption. apply Ok_inj in E1, E2. subst p.
  apply closed_inj in E2.
  repeat (apply cons_inj in E2; let E := fresh in destruct E2 as [E E2]).
  split; [|split; lia]. destruct g, g'; cbn in *; try reflexivity; lia.
Qed.

Lemma service_inj : forall cv b cv' b' bit pos bit' pos' p,
  0 <= cv < 1024 -> byte b -> 0 <= cv' < 1024 -> byte b' -> 0 <= pos < 8 -> 0 <= pos' < 8 ->
  (make_cv_access_long_verify_service_packet cv b = Ok p ->
   make_cv_access_long_verify_service_packet cv' b' = Ok p -> cv = cv' /\ b = b') /\
  (make_cv_access_long_write_service_packet cv b = Ok p ->
   make_cv_access_long_write_service_packet cv' b' = Ok p -> cv = cv' /\ b = b') /\
  (make_cv_access_long_verify_bit_service_packet cv bit pos = Ok p ->
   make_cv_access_long_verify_bit_service_packet cv' bit' pos' = Ok p ->
   cv = cv' /\ bit = bit' /\ pos = pos') /\
  (make_cv_access_long_write_bit_service_packet cv bit pos = Ok p ->
   make_cv_access_long_write_bit_service_packet cv' bit' pos' = Ok p ->
   cv = cv' /\ bit = bit' /\ pos = pos').
Proof.
  intros cv b cv' b' bit pos bit' pos' p H1 H2 H3 H4 H5 H6.
  destruct (gen_service cv b bit pos H1 H2 H5) as (A1 & A2 & A3 & A4).
  destruct (gen_service cv' b' bit' pos' H3 H4 H6) as (B1 & B2 & B3 & B4).
  rewrite A1, A2, A3, A4, B1, B2, B3, B4.
  refine (conj _ (conj _ (conj _ _))); intros E1 E2; apply Ok_inj in E1, E2; subst p;
    apply closed_inj in E2;
    repeat (apply cons_inj in E2; let E := fresh in destruct E2 as [E E2]);
    destruct bit, bit'; cbn [Z.b2z] in *; repeat split; try reflexivity; lia.
Qed.

Lemma logon_long_inj : forall m d x m' d' x' p,
  0 <= m < 4096 -> 0 <= d < 2 ^ 32 -> 0 <= m' < 4096 -> 0 <= d' < 2 ^ 32 ->
  (byte x -> byte x' ->
   make_logon_select_packet m d x = Ok p -> make_logon_select_packet m' d' x' = Ok p ->
   m = m' /\ d = d' /\ x = x') /\
  (0 <= x < 65536 -> 0 <= x' < 65536 ->
   make_logon_assign_packet m d x = Ok p -> make_logon_assign_packet m' d' x' = Ok p ->
   m = m' /\ d = d' /\ x = x').
Proof.
  intros m d x m' d' x' p H1 H2 H3 H4.
  split; intros H5 H6 E1 E2;
    [rewrite gen_logon_select in E1, E2 by assumption
    |rewrite gen_logon_assign in E1, E2 by assumption];
    apply Ok_inj in E1, E2; subst p; unfold extended in E2; apply closed_inj in E2;
    apply app_inj_tail in E2; destruct E2 as [E2 _];
    repeat (apply cons_inj in E2; let E := fresh in destruct E2 as [E E2]);
    change (2 ^ 24) with 16777216 in *; change (2 ^ 16) with 65536 in *;
    change (2 ^ 32) with 4294967296 in *; unfold byte in *; repeat split; lia.
Qed.

Lemma extended_crc : forall bs, Forall byte bs ->
  crc8 (bs ++ [crc_serial bs]) = 0 /\ xor_all (extended bs) = 0.
Proof.
  intros bs Hb. split; [|apply closed_xor]. rewrite <- crc8_serial by assumption.
  apply crc8_residue. assumption.
Qed.

Lemma decode_instruction_total : forall p i, Forall byte p ->
  decode_instruction_packet p = Ok i -> i <> IUnknownService /\ i <> ILogon.
Proof.
  intros p i Hp H. destruct p as [|b p].
  { discriminate H. }
  rewrite (decode_instruction_packet_spec (b :: p) b Hp eq_refl) in H.
  destruct (nth_error (b :: p) _) as [x|] eqn:E; [|discriminate].
  apply Ok_inj in H. subst i. apply nth_error_In in E.
  rewrite Forall_forall in Hp. specialize (Hp x E). unfold byte in Hp.
  apply nibble_class_total. lia.
Qed.
