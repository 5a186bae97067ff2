(** Proofs about the codecs. *)
From Verif Require Import Prelude Address Instruction Checksum Datagram Speed Packets Tx
  ZBits SpecCodec.
Ltac Zify.zify_post_hook ::= Z.div_mod_to_equations.

(** ** Addresses *)

Lemma encode_long : forall v r, 0 <= v < 16384 ->
  encode_address (Addr v ATLong r) = Ok [192 + v / 256; v mod 256].
Proof.
  intros v r Hv. unfold encode_address, u8. cbn [atyp aval].
  rewrite Z.shiftr_div_pow2 by lia. change (2 ^ 8) with 256.
  change 192 with (3 * 2 ^ 6) at 1. rewrite lor_add by (cbn; lia).
  rewrite (Z.mod_small (3 * 2 ^ 6 + v / 256)) by (change (2 ^ 6) with 64; lia). reflexivity.
Qed.

Lemma encode_long_big : forall v r, 16384 <= v < 65536 ->
  exists b, encode_address (Addr v ATLong r) = Ok [b; v mod 256] /\ byte b.
Proof.
  intros v r Hv. unfold encode_address. cbn [atyp aval].
  eexists; split; [reflexivity|apply u8_byte].
Qed.

Lemma decode_first : forall b rest, byte b -> ~ (192 <= b <= 231) ->
  decode_address (b :: rest) = Ok (Addr b (first_byte_class b) false).
Proof.
  intros b rest Hb Hn. unfold byte in Hb. unfold decode_address, first_byte_class.
  destruct (b =? 0) eqn:E0; [reflexivity|]. apply Z.eqb_neq in E0.
  destruct (b <=? 127) eqn:E1.
  { destruct (b <? 128) eqn:E; [reflexivity|lia]. }
  destruct (b <=? 191) eqn:E2.
  { destruct (b <? 128) eqn:E; [lia|]. destruct (b <? 192) eqn:E'; [reflexivity|lia]. }
  destruct (b <=? 231) eqn:E3; [lia|].
  replace (b <? 128) with false by (symmetry; lia).
  replace (b <? 192) with false by (symmetry; lia).
  replace (b <? 232) with false by (symmetry; lia).
  destruct (b <=? 252) eqn:E4.
  { destruct (b <? 253) eqn:E; [reflexivity|lia]. }
  replace (b <? 253) with false by (symmetry; lia).
  assert (b = 253 \/ b = 254 \/ b = 255) as [->|[->| ->]] by lia; reflexivity.
Qed.

Lemma decode_long : forall b c rest, 192 <= b <= 231 -> byte c ->
  decode_address (b :: c :: rest) = Ok (Addr ((b - 192) * 256 + c) ATLong false).
Proof.
  intros b c rest Hb Hc. unfold byte in Hc. unfold decode_address.
  replace (b =? 0) with false by (symmetry; lia).
  replace (b <=? 127) with false by (symmetry; lia).
  replace (b <=? 191) with false by (symmetry; lia).
  replace (b <=? 231) with true by (symmetry; lia).
  rewrite lor_shiftl by (cbn; lia). rewrite land_3FFF. unfold u16.
  apply f_equal. apply (f_equal (fun x => Addr x ATLong false)).
  change (2 ^ 8) with 256. lia.
Qed.

Lemma decode_long_short : forall b, 192 <= b <= 231 -> decode_address [b] = UB OutOfBounds.
Proof.
  intros b Hb. unfold decode_address.
  replace (b =? 0) with false by (symmetry; lia).
  replace (b <=? 127) with false by (symmetry; lia).
  replace (b <=? 191) with false by (symmetry; lia).
  replace (b <=? 231) with true by (symmetry; lia). reflexivity.
Qed.

Lemma address_wire_format : forall v r, 0 <= v < 65536 ->
  encode_address (Addr v ATBroadcast r) = Ok [0] /\
  (v < 256 -> encode_address (Addr v ATShort r) = Ok [v]) /\
  (v < 16384 -> encode_address (Addr v ATLong r) = Ok [192 + v / 256; v mod 256]).
Proof.
  intros v r Hv. repeat split.
  - intros H. unfold encode_address, u8. cbn [atyp aval]. rewrite Z.mod_small by lia. reflexivity.
  - intros H. apply encode_long; lia.
Qed.

Lemma address_round_trip : forall v t r tail,
  0 <= v < 65536 -> In t [ATBroadcast; ATShort; ATLong] -> Forall byte tail ->
  (exists bs, encode_address (Addr v t r) = Ok bs /\
              decode_address (bs ++ tail) = Ok (Addr v t false))
  <-> (t = ATBroadcast /\ v = 0) \/ (t = ATShort /\ 1 <= v <= 127)
      \/ (t = ATLong /\ v <= 10239).
Proof.
  intros v t r tail Hv Ht Htail. split.
  - intros (bs & He & Hd). destruct Ht as [<-|[<-|[<-|[]]]].
    + left. apply Ok_inj in He; subst bs. cbn in Hd. injection Hd as ->. auto.
    + right. left. split; [reflexivity|].
      unfold encode_address in He; cbn [atyp aval] in He. apply Ok_inj in He; subst bs.
      cbn [app] in Hd.
      destruct (Z_le_gt_dec 192 (u8 v)); [destruct (Z_le_gt_dec (u8 v) 231)|].
      * destruct tail as [|c tl].
        { rewrite decode_long_short in Hd by lia. discriminate. }
        inversion Htail; subst. rewrite decode_long in Hd by (assumption || lia). discriminate.
      * rewrite decode_first in Hd by (try apply u8_byte; lia).
        injection Hd as Hu Hc. rewrite Hu in *. unfold first_byte_class in Hc.
        destruct (v =? 0); [discriminate|]. destruct (v <? 128) eqn:E; [lia|].
        destruct (v <? 192); [discriminate|]. destruct (v <? 232); [discriminate|].
        destruct (v <? 253) eqn:E5; [discriminate|].
        assert (byte v) by (rewrite <- Hu; apply u8_byte). unfold byte in *.
        assert (v = 253 \/ v = 254 \/ v = 255) as [->|[->| ->]] by lia; discriminate.
      * rewrite decode_first in Hd by (try apply u8_byte; lia).
        injection Hd as Hu Hc. rewrite Hu in *. unfold first_byte_class in Hc.
        destruct (v =? 0) eqn:E0; [discriminate|]. destruct (v <? 128) eqn:E; [lia|].
        destruct (v <? 192) eqn:E6; [discriminate|]. lia.
    + right. right. split; [reflexivity|].
      destruct (Z_lt_le_dec v 10240) as [|Hbig]; [lia|exfalso].
      destruct (Z_lt_le_dec v 16384).
      * rewrite encode_long in He by lia. apply Ok_inj in He; subst bs. cbn [app] in Hd.
        rewrite decode_first in Hd by (unfold byte; lia). apply Ok_inj in Hd. apply (f_equal aval) in Hd. cbn [aval] in Hd. lia.
      * destruct (encode_long_big v r ltac:(lia)) as (b & Hb & Hbb).
        rewrite Hb in He. apply Ok_inj in He; subst bs. cbn [app] in Hd.
        destruct (Z_le_gt_dec 192 b); [destruct (Z_le_gt_dec b 231)|].
        -- rewrite decode_long in Hd by (unfold byte; lia). apply Ok_inj in Hd.
           apply (f_equal aval) in Hd. cbn [aval] in Hd. lia.
        -- rewrite decode_first in Hd by (unfold byte in *; lia). apply Ok_inj in Hd. apply (f_equal aval) in Hd. cbn [aval] in Hd.
           unfold byte in Hbb. lia.
        -- rewrite decode_first in Hd by (unfold byte in *; lia). apply Ok_inj in Hd. apply (f_equal aval) in Hd. cbn [aval] in Hd.
           unfold byte in Hbb. lia.
  - intros [[-> ->]|[[-> Hs]|[-> Hl]]].
    + exists [0]. split; reflexivity.
    + exists [v]. split.
      { apply address_wire_format; lia. }
      cbn [app]. rewrite decode_first by (unfold byte; lia).
      unfold first_byte_class. replace (v =? 0) with false by (symmetry; lia).
      replace (v <? 128) with true by (symmetry; lia). reflexivity.
    + exists [192 + v / 256; v mod 256]. split; [apply encode_long; lia|].
      cbn [app]. rewrite decode_long by (unfold byte; lia).
      apply f_equal. apply (f_equal (fun x => Addr x ATLong false)). lia.
Qed.

Lemma address_above_10239 : forall v r tail, 10240 <= v < 16384 ->
  exists bs a, encode_address (Addr v ATLong r) = Ok bs /\
               decode_address (bs ++ tail) = Ok a /\
               In (atyp a) [ATReserved; ATDataTransfer; ATLogon; ATIdle] /\ aval a = 192 + v / 256.
Proof.
  intros v r tail Hv. exists [192 + v / 256; v mod 256]. eexists.
  split; [apply encode_long; lia|]. cbn [app].
  rewrite decode_first by (unfold byte; lia). split; [reflexivity|].
  cbn [atyp aval]. split; [|reflexivity].
  assert (232 <= 192 + v / 256 <= 255) as Hr by lia.
  remember (192 + v / 256) as b. clear Heqb. unfold first_byte_class.
  replace (b =? 0) with false by (symmetry; lia).
  replace (b <? 128) with false by (symmetry; lia).
  replace (b <? 192) with false by (symmetry; lia).
  replace (b <? 232) with false by (symmetry; lia).
  destruct (b <? 253) eqn:E; [cbn; auto|].
  assert (b = 253 \/ b = 254 \/ b = 255) as [->|[->| ->]] by lia; cbn; auto.
Qed.

Lemma addr_eqb_spec : forall a b,
  addr_eqb a b = true <->
  aval a = aval b /\
  (atyp a = atyp b \/
   (In (atyp a) [ATShort; ATLong] /\ In (atyp b) [ATShort; ATLong])).
Proof.
  intros [va ta ra] [vb tb rb]. unfold addr_eqb. cbn [aval atyp].
  destruct ta, tb; cbn [is_loco_type andb atype_eqb];
    rewrite ?andb_true_r, ?andb_false_r, ?Z.eqb_eq; cbn [In];
    intuition congruence.
Qed.

Lemma decode_classes : forall b rest, byte b -> Forall byte rest ->
  decode_address (b :: rest) =
    match first_byte_class b, rest with
    | ATLong, c :: _ => Ok (Addr ((b - 192) * 256 + c) ATLong false)
    | ATLong, [] => UB OutOfBounds
    | k, _ => Ok (Addr b k false)
    end.
Proof.
  intros b rest Hb Hr.
  destruct (Z_le_gt_dec 192 b); [destruct (Z_le_gt_dec b 231)|].
  - assert (first_byte_class b = ATLong) as ->.
    { unfold first_byte_class. replace (b =? 0) with false by (symmetry; lia).
      replace (b <? 128) with false by (symmetry; lia).
      replace (b <? 192) with false by (symmetry; lia).
      replace (b <? 232) with true by (symmetry; lia). reflexivity. }
    destruct rest as [|c tl]; [apply decode_long_short; lia|].
    inversion Hr; subst. apply decode_long; [lia|assumption].
  - rewrite decode_first by (assumption || lia).
    assert (first_byte_class b <> ATLong) as Hn.
    { unfold byte in Hb. unfold first_byte_class.
      destruct (b =? 0); [discriminate|]. destruct (b <? 128); [discriminate|].
      destruct (b <? 192); [discriminate|]. destruct (b <? 232) eqn:E; [lia|].
      destruct (b <? 253) eqn:E253; [discriminate|].
      assert (b = 253 \/ b = 254 \/ b = 255) as [->|[->| ->]] by lia; discriminate. }
    destruct (first_byte_class b); try reflexivity. contradiction.
  - rewrite decode_first by (assumption || lia).
    assert (first_byte_class b <> ATLong) as Hn.
    { unfold byte in Hb. unfold first_byte_class.
      destruct (b =? 0); [discriminate|]. destruct (b <? 128); [discriminate|].
      destruct (b <? 192) eqn:E; [discriminate|lia]. }
    destruct (first_byte_class b); try reflexivity. contradiction.
Qed.

Lemma decode_empty : decode_address [] = UB OutOfBounds.
Proof. reflexivity. Qed.

(** ** Instructions *)

Definition instruction_eqb (a b : instruction) : bool :=
  match a, b with
  | IUnknownService, IUnknownService | IDecoderControl, IDecoderControl
  | IConsistControl, IConsistControl | IAdvancedOperations, IAdvancedOperations
  | ISpeedDirection, ISpeedDirection | IFunctionGroup, IFunctionGroup
  | IFeatureExpansion, IFeatureExpansion | ICvLong, ICvLong | ICvShort, ICvShort
  | ILogon, ILogon => true
  | _, _ => false
  end.
Lemma instruction_eqb_eq : forall a b, instruction_eqb a b = true -> a = b.
Proof. destruct a, b; cbn; congruence. Qed.

Lemma classify_nibble : forall b, byte b -> classify b = nibble_class (b / 16).
Proof.
  intros b Hb. apply instruction_eqb_eq.
  apply (sweep8 (fun b => instruction_eqb (classify b) (nibble_class (b / 16))));
    [vm_compute; reflexivity|assumption].
Qed.

Lemma nibble_class_total : forall n, 0 <= n < 16 ->
  nibble_class n <> IUnknownService /\ nibble_class n <> ILogon.
Proof.
  intros n Hn.
  assert (forallb (fun n => negb (instruction_eqb (nibble_class n) IUnknownService)
                          && negb (instruction_eqb (nibble_class n) ILogon)) (zseq 0 16) = true)
    as H by reflexivity.
  pose proof (sweep _ 0 16 H n ltac:(lia)) as Hs. cbn beta in Hs.
  apply andb_prop in Hs. destruct Hs as [H1 H2].
  split; intros E; rewrite E in *; discriminate.
Qed.

Lemma decode_instruction_spec : forall b rest, byte b ->
  decode_instruction (b :: rest) = Ok (nibble_class (b / 16)).
Proof. intros. cbn [decode_instruction]. rewrite classify_nibble by assumption. reflexivity. Qed.

Lemma decode_instruction_packet_spec : forall p b, Forall byte p -> nth_error p 0 = Some b ->
  decode_instruction_packet p =
  match nth_error p (if (128 <=? b) && (b <? 253) then 2 else 1) with
  | Some i => Ok (nibble_class (i / 16))
  | None => UB OutOfBounds
  end.
Proof.
  intros p b Hp H0. destruct p as [|b' p]; [discriminate|]. injection H0 as ->.
  inversion Hp as [|? ? Hb Hp']; subst. unfold decode_instruction_packet.
  replace (b <? 253) with (b <=? 252) by (destruct (b <=? 252) eqn:E; symmetry; lia).
  destruct ((128 <=? b) && (b <=? 252)).
  - cbn [Nat.add skipn nth_error].
    destruct p as [|c p]; [reflexivity|]. inversion Hp'; subst.
    destruct p as [|e p]; [reflexivity|]. cbn [skipn nth_error].
    match goal with H : Forall byte (e :: p) |- _ => inversion H; subst end.
    apply decode_instruction_spec; assumption.
  - cbn [Nat.add skipn nth_error].
    destruct p as [|c p]; [reflexivity|]. inversion Hp'; subst.
    cbn [nth_error]. apply decode_instruction_spec; assumption.
Qed.

(** ** Words *)

Lemma uint16_2data_spec : forall w, 0 <= w < 65536 ->
  uint16_2data w = [w / 256; w mod 256].
Proof.
  intros w Hw. unfold uint16_2data, u8.
  change 0xFF00 with (Z.shiftl (2 ^ 8 - 1) 8). rewrite shiftr_land_field by lia.
  rewrite land_FF. change (2 ^ 8) with 256. parts; lia.
Qed.

Lemma uint32_2data_spec : forall w, 0 <= w < 2 ^ 32 ->
  uint32_2data w = [w / 2 ^ 24; (w / 2 ^ 16) mod 256; (w / 256) mod 256; w mod 256].
Proof.
  intros w Hw. unfold uint32_2data, u8.
  change 0xFF000000 with (Z.shiftl (2 ^ 8 - 1) 24).
  change 0x00FF0000 with (Z.shiftl (2 ^ 8 - 1) 16).
  change 0x0000FF00 with (Z.shiftl (2 ^ 8 - 1) 8).
  rewrite !shiftr_land_field by lia.
  change 0x000000FF with 255. rewrite land_FF.
  change (2 ^ 8) with 256. rewrite !Z.mod_mod by lia.
  parts. apply Z.mod_small. change (2^32) with 4294967296 in *. change (2^24) with 16777216. lia.
Qed.

Lemma data2uint16_spec : forall a b rest, byte a -> byte b ->
  data2uint16 (a :: b :: rest) = Ok (a * 256 + b).
Proof.
  unfold byte. intros a b rest Ha Hb. cbn [data2uint16]. unfold u16.
  rewrite lor_shiftl by (cbn; lia). f_equal. rewrite Z.mod_small by (change (2^8) with 256; lia).
  reflexivity.
Qed.

Lemma data2uint32_spec : forall a b c d rest, byte a -> byte b -> byte c -> byte d ->
  data2uint32 (a :: b :: c :: d :: rest) = Ok (((a * 256 + b) * 256 + c) * 256 + d).
Proof.
  unfold byte. intros a b c d rest Ha Hb Hc Hd. cbn [data2uint32]. unfold u32. f_equal.
  assert (Z.lor (Z.shiftl a 24) (Z.shiftl b 16) = (a * 256 + b) * 2 ^ 16) as ->.
  { replace (Z.shiftl a 24) with (Z.shiftl (Z.shiftl a 8) 16) by (rewrite Z.shiftl_shiftl; [reflexivity|lia]).
    rewrite <- Z.shiftl_lor, lor_shiftl by (cbn; lia). rewrite Z.shiftl_mul_pow2 by lia. reflexivity. }
  rewrite (Z.shiftl_mul_pow2 c 8) by lia.
  rewrite lor_add by (cbn; lia).
  replace ((a * 256 + b) * 2 ^ 16 + c * 2 ^ 8) with (((a * 256 + b) * 256 + c) * 2 ^ 8)
    by (change (2 ^ 16) with (256 * 256); change (2 ^ 8) with 256; ring).
  rewrite lor_add by (cbn; lia). change (2 ^ 8) with 256. apply Z.mod_small. lia.
Qed.

Lemma words_inverse :
  (forall w, 0 <= w < 65536 -> Forall byte (uint16_2data w) /\ data2uint16 (uint16_2data w) = Ok w) /\
  (forall w, 0 <= w < 2 ^ 32 -> Forall byte (uint32_2data w) /\ data2uint32 (uint32_2data w) = Ok w) /\
  (forall a b, byte a -> byte b ->
     exists w, data2uint16 [a; b] = Ok w /\ 0 <= w < 65536 /\ uint16_2data w = [a; b]) /\
  (forall a b c d, byte a -> byte b -> byte c -> byte d ->
     exists w, data2uint32 [a; b; c; d] = Ok w /\ 0 <= w < 2 ^ 32 /\ uint32_2data w = [a; b; c; d]).
Proof.
  split; [|split; [|split]].
  - intros w Hw. rewrite uint16_2data_spec by assumption. split.
    + repeat constructor; unfold byte; lia.
    + rewrite data2uint16_spec by (unfold byte; lia). f_equal. lia.
  - intros w Hw. rewrite uint32_2data_spec by assumption.
    change (2 ^ 32) with 4294967296 in *. change (2 ^ 24) with 16777216. change (2 ^ 16) with 65536.
    split.
    + repeat constructor; unfold byte; lia.
    + rewrite data2uint32_spec by (unfold byte; lia). f_equal. lia.
  - unfold byte. intros a b Ha Hb. exists (a * 256 + b).
    rewrite data2uint16_spec by (unfold byte; lia). split; [reflexivity|]. split; [lia|].
    rewrite uint16_2data_spec by lia. parts; lia.
  - unfold byte. intros a b c d Ha Hb Hc Hd. exists (((a * 256 + b) * 256 + c) * 256 + d).
    rewrite data2uint32_spec by (unfold byte; lia). split; [reflexivity|].
    change (2 ^ 32) with 4294967296. split; [lia|].
    rewrite uint32_2data_spec by (change (2 ^ 32) with 4294967296; lia).
    change (2 ^ 24) with 16777216. change (2 ^ 16) with 65536. parts; lia.
Qed.

(** ** CRC-8 *)

Lemma crc8_byte_serial : forall b, byte b ->
  crc8_byte b = fold_left crc_shift (repeat false 8) b.
Proof.
  intros b Hb. apply Z.eqb_eq.
  apply (sweep8 (fun b => crc8_byte b =? fold_left crc_shift (repeat false 8) b));
    [vm_compute; reflexivity|assumption].
Qed.

Lemma crc_shift8 : forall s b, byte s -> byte b ->
  fold_left crc_shift (lsb_bits b) s = crc8_byte (Z.lxor s b).
Proof.
  intros s b Hs Hb. apply Z.eqb_eq.
  apply (sweep88 (fun s b => fold_left crc_shift (lsb_bits b) s =? crc8_byte (Z.lxor s b)));
    [vm_compute; reflexivity|assumption|assumption].
Qed.

Lemma crc8_byte_range : forall b, byte b -> byte (crc8_byte b).
Proof.
  intros b Hb.
  assert ((0 <=? crc8_byte b) && (crc8_byte b <? 256) = true) as H.
  { apply (sweep8 (fun b => (0 <=? crc8_byte b) && (crc8_byte b <? 256)));
      [vm_compute; reflexivity|assumption]. }
  unfold byte. lia.
Qed.

Lemma crc8_fold_serial : forall m s, Forall byte m -> byte s ->
  fold_left (fun a b => crc8_byte (u8 (Z.lxor a b))) m s = fold_left crc_shift (msg_bits m) s
  /\ byte (fold_left crc_shift (msg_bits m) s).
Proof.
  induction m as [|b m IH]; intros s Hm Hs; [split; [reflexivity|assumption]|].
  inversion Hm; subst. cbn [fold_left]. unfold msg_bits; cbn [flat_map].
  rewrite fold_left_app. rewrite crc_shift8 by assumption.
  rewrite u8_id by (apply lxor_byte; assumption).
  apply IH; [assumption|]. apply crc8_byte_range. apply lxor_byte; assumption.
Qed.

Lemma crc8_serial : forall m, Forall byte m -> crc8 m = crc_serial m.
Proof. intros m Hm. apply (crc8_fold_serial m 0 Hm). unfold byte; lia. Qed.

Lemma crc8_range : forall m, Forall byte m -> byte (crc8 m).
Proof.
  intros m Hm. rewrite crc8_serial by assumption.
  apply (crc8_fold_serial m 0 Hm). unfold byte; lia.
Qed.

Lemma crc8_residue : forall m, Forall byte m -> crc8 (m ++ [crc8 m]) = 0.
Proof.
  intros m Hm. unfold crc8 at 1. rewrite fold_left_app. cbn [fold_left].
  change (fold_left _ m 0) with (crc8 m). rewrite Z.lxor_nilpotent. reflexivity.
Qed.

(** Only the right CRC gives residue zero *)
Lemma crc8_byte_zero : forall b, byte b -> crc8_byte b = 0 -> b = 0.
Proof.
  intros b Hb H.
  assert (negb (crc8_byte b =? 0) || (b =? 0) = true) as E.
  { apply (sweep8 (fun b => negb (crc8_byte b =? 0) || (b =? 0)));
      [vm_compute; reflexivity|assumption]. }
  rewrite H in E. cbn in E. lia.
Qed.

Lemma crc8_packet_serial : forall m x, Forall byte m -> crc8_packet (m ++ [x]) = Ok (crc_serial m).
Proof.
  intros m x Hm. unfold crc8_packet. rewrite removelast_last, crc8_serial by exact Hm.
  destruct m; reflexivity.
Qed.

Lemma crc8_residue_iff : forall m c, Forall byte m -> byte c ->
  (crc8 (m ++ [c]) = 0 <-> c = crc8 m).
Proof.
  intros m c Hm Hc. split; [|intros ->; apply crc8_residue; assumption].
  unfold crc8 at 1. rewrite fold_left_app. cbn [fold_left].
  change (fold_left _ m 0) with (crc8 m). intros H.
  pose proof (crc8_range m Hm) as Hr.
  apply crc8_byte_zero in H; [|apply u8_byte].
  rewrite u8_id in H by (apply lxor_byte; assumption).
  apply Z.lxor_eq in H. congruence.
Qed.

(** Burst errors *)
Lemma crc_shift_range : forall s x, byte s -> byte (crc_shift s x).
Proof.
  intros s x Hs.
  assert (forall x, (0 <=? crc_shift s x) && (crc_shift s x <? 256) = true) as H.
  { intros [|].
    - apply (sweep8 (fun s => (0 <=? crc_shift s true) && (crc_shift s true <? 256)));
        [vm_compute; reflexivity|assumption].
    - apply (sweep8 (fun s => (0 <=? crc_shift s false) && (crc_shift s false <? 256)));
        [vm_compute; reflexivity|assumption]. }
  specialize (H x). unfold byte. lia.
Qed.

Lemma crc_shift_inj : forall s t x, byte s -> byte t -> crc_shift s x = crc_shift t x -> s = t.
Proof.
  intros s t x Hs Ht H.
  assert (forall x, negb (crc_shift s x =? crc_shift t x) || (s =? t) = true) as E.
  { intros [|].
    - apply (sweep88 (fun s t => negb (crc_shift s true =? crc_shift t true) || (s =? t)));
        [vm_compute; reflexivity|assumption|assumption].
    - apply (sweep88 (fun s t => negb (crc_shift s false =? crc_shift t false) || (s =? t)));
        [vm_compute; reflexivity|assumption|assumption]. }
  specialize (E x). rewrite H, Z.eqb_refl in E. cbn in E. lia.
Qed.

Lemma crc_run_range : forall xs s, byte s -> byte (fold_left crc_shift xs s).
Proof.
  induction xs as [|x xs IH]; intros s Hs; [assumption|].
  cbn [fold_left]. apply IH. apply crc_shift_range. assumption.
Qed.

Lemma crc_run_inj : forall xs s t, byte s -> byte t ->
  fold_left crc_shift xs s = fold_left crc_shift xs t -> s = t.
Proof.
  induction xs as [|x xs IH]; intros s t Hs Ht H; [assumption|].
  cbn [fold_left] in H. apply IH in H; try (apply crc_shift_range; assumption).
  apply crc_shift_inj in H; assumption.
Qed.

Definition bits_val8 (xs : list bool) : Z :=
  fold_right (fun (x : bool) a => Z.b2z x + 2 * a) 0 xs.

Lemma lsb_bits_val : forall x0 x1 x2 x3 x4 x5 x6 x7,
  let xs := [x0; x1; x2; x3; x4; x5; x6; x7] in
  byte (bits_val8 xs) /\ lsb_bits (bits_val8 xs) = xs.
Proof.
  intros. destruct x0, x1, x2, x3, x4, x5, x6, x7; split; try reflexivity;
    unfold byte; vm_compute; split; congruence.
Qed.

Lemma crc_window_inj : forall xs ys s, byte s -> length xs = 8%nat -> length ys = 8%nat ->
  fold_left crc_shift xs s = fold_left crc_shift ys s -> xs = ys.
Proof.
  intros xs ys s Hs Hx Hy H.
  assert (forall zs, length zs = 8%nat -> byte (bits_val8 zs) /\ lsb_bits (bits_val8 zs) = zs) as L.
  { intros zs Hz.
    destruct zs as [|z0 [|z1 [|z2 [|z3 [|z4 [|z5 [|z6 [|z7 [|]]]]]]]]]; try discriminate.
    apply lsb_bits_val. }
  destruct (L xs Hx) as [Bx Ex]. destruct (L ys Hy) as [By Ey].
  rewrite <- Ex, <- Ey in H. rewrite !crc_shift8 in H by assumption.
  assert (forall a b, byte a -> byte b -> crc8_byte a = crc8_byte b -> a = b) as I.
  { intros a b Ha Hb Hab.
    assert (negb (crc8_byte a =? crc8_byte b) || (a =? b) = true) as E.
    { apply (sweep88 (fun a b => negb (crc8_byte a =? crc8_byte b) || (a =? b)));
        [vm_compute; reflexivity|assumption|assumption]. }
    rewrite Hab, Z.eqb_refl in E. cbn in E. lia. }
  apply I in H; try (apply lxor_byte; assumption).
  assert (bits_val8 xs = bits_val8 ys) as V.
  { apply (f_equal (Z.lxor s)) in H. rewrite <- !Z.lxor_assoc, Z.lxor_nilpotent, !Z.lxor_0_l in H.
    assumption. }
  rewrite <- Ex, <- Ey, V. reflexivity.
Qed.

Lemma msg_bits_length : forall m, length (msg_bits m) = (8 * length m)%nat.
Proof.
  induction m as [|b m IH]; [reflexivity|].
  unfold msg_bits in *. cbn [flat_map]. rewrite app_length, IH. cbn [length lsb_bits map]. lia.
Qed.

Lemma lsb_bits_inj : forall a b, byte a -> byte b -> lsb_bits a = lsb_bits b -> a = b.
Proof.
  intros a b Ha Hb H.
  assert (forall c, byte c -> bits_val8 (lsb_bits c) = c) as V.
  { intros c Hc. apply Z.eqb_eq.
    apply (sweep8 (fun c => bits_val8 (lsb_bits c) =? c)); [vm_compute; reflexivity|assumption]. }
  rewrite <- (V a Ha), <- (V b Hb), H. reflexivity.
Qed.

Lemma msg_bits_inj : forall m n, Forall byte m -> Forall byte n -> msg_bits m = msg_bits n -> m = n.
Proof.
  induction m as [|a m IH]; intros n Hm Hn H.
  - destruct n; [reflexivity|discriminate].
  - destruct n as [|b n]; [discriminate|]. inversion Hm; inversion Hn; subst.
    unfold msg_bits in H. cbn [flat_map] in H.
    assert (lsb_bits a = lsb_bits b /\ flat_map lsb_bits m = flat_map lsb_bits n) as [E1 E2].
    { cbn [lsb_bits map app] in *. injection H. intros; subst. split; congruence. }
    f_equal; [apply lsb_bits_inj; assumption|apply IH; assumption].
Qed.

Lemma crc_window_inj_le : forall xs ys s, byte s -> length xs = length ys ->
  (length xs <= 8)%nat ->
  fold_left crc_shift xs s = fold_left crc_shift ys s -> xs = ys.
Proof.
  intros xs ys s Hs Hl H8 H.
  set (pad := repeat false (8 - length xs)).
  assert (xs ++ pad = ys ++ pad) as E.
  { apply (crc_window_inj (xs ++ pad) (ys ++ pad) s Hs).
    - rewrite app_length. unfold pad. rewrite repeat_length. lia.
    - rewrite app_length. unfold pad. rewrite repeat_length. lia.
    - rewrite !fold_left_app, H. reflexivity. }
  apply app_inv_tail in E. assumption.
Qed.

Lemma crc8_burst : forall m n p a b s,
  Forall byte m -> Forall byte n -> m <> n ->
  msg_bits m = p ++ a ++ s -> msg_bits n = p ++ b ++ s ->
  length a = length b -> (length a <= 8)%nat ->
  crc8 m <> crc8 n.
Proof.
  intros m n p a b s Hm Hn Hne Em En Hl H8 E.
  rewrite !crc8_serial in E by assumption. unfold crc_serial, crc_bits in E.
  rewrite Em, En, !fold_left_app in E.
  assert (byte (fold_left crc_shift p 0)) as Hp by (apply crc_run_range; unfold byte; lia).
  apply crc_run_inj in E; try (apply crc_run_range; assumption).
  apply crc_window_inj_le in E; [|assumption|assumption|assumption].
  subst b. apply Hne. apply msg_bits_inj; congruence.
Qed.

(** ** XOR checksum *)

Lemma xor_all_byte : forall bs, Forall byte bs -> byte (xor_all bs).
Proof.
  induction 1 as [|b bs Hb Hbs IH]; [unfold byte; cbn; lia|].
  cbn [xor_all fold_right]. apply lxor_byte; assumption.
Qed.

Lemma exor_fold : forall bs a, Forall byte bs -> byte a ->
  fold_left (fun a b => u8 (Z.lxor a b)) bs a = Z.lxor a (xor_all bs).
Proof.
  induction bs as [|b bs IH]; intros a Hbs Ha; cbn [fold_left xor_all fold_right].
  - rewrite Z.lxor_0_r. reflexivity.
  - inversion Hbs; subst. rewrite u8_id by (apply lxor_byte; assumption).
    rewrite IH by (try assumption; apply lxor_byte; assumption).
    rewrite Z.lxor_assoc. reflexivity.
Qed.

Lemma exor_spec : forall bs, Forall byte bs -> exor bs = xor_all bs.
Proof.
  intros bs H. unfold exor. rewrite exor_fold by (try assumption; unfold byte; lia).
  apply Z.lxor_0_l.
Qed.

Lemma xor_all_app : forall a b, xor_all (a ++ b) = Z.lxor (xor_all a) (xor_all b).
Proof.
  induction a as [|x a IH]; intros b; cbn [app xor_all fold_right].
  - rewrite Z.lxor_0_l. reflexivity.
  - change (fold_right Z.lxor 0 (a ++ b)) with (xor_all (a ++ b)). rewrite IH, Z.lxor_assoc.
    reflexivity.
Qed.

Lemma xor_all_snoc : forall bs, xor_all (bs ++ [xor_all bs]) = 0.
Proof.
  intros. rewrite xor_all_app. cbn [xor_all fold_right]. rewrite Z.lxor_0_r. apply Z.lxor_nilpotent.
Qed.

Lemma exor_packet_spec : forall bs c, Forall byte bs ->
  exor_packet (bs ++ [c]) = Ok (xor_all bs).
Proof.
  intros bs c H. unfold exor_packet. destruct (bs ++ [c]) eqn:E.
  - destruct bs; discriminate.
  - rewrite <- E, removelast_last, exor_spec by assumption. reflexivity.
Qed.

(** Replacing one byte *)
Lemma xor_all_change : forall l r b c, b <> c ->
  xor_all (l ++ b :: r) = 0 -> xor_all (l ++ c :: r) <> 0.
Proof.
  intros l r b c Hne H0 H1. rewrite xor_all_app in H0, H1.
  cbn [xor_all fold_right] in H0, H1. apply Hne.
  assert (Z.lxor (xor_all l) (Z.lxor b (fold_right Z.lxor 0 r)) =
          Z.lxor (xor_all l) (Z.lxor c (fold_right Z.lxor 0 r))) as E by congruence.
  apply (f_equal (Z.lxor (xor_all l))) in E.
  rewrite <- !Z.lxor_assoc, Z.lxor_nilpotent, !Z.lxor_0_l in E.
  apply (f_equal (fun x => Z.lxor x (fold_right Z.lxor 0 r))) in E.
  rewrite !Z.lxor_assoc, Z.lxor_nilpotent, !Z.lxor_0_r in E. assumption.
Qed.
