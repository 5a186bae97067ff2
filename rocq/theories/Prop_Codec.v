(** Property theorems C01..C13: addresses, instructions, checksums, datagrams,
    speeds, packet generators and packet timings. *)
From Verif Require Import Prelude Address Instruction Checksum Datagram Speed Packets Tx
  SpecCodec CodecProofs CodecProofs2.

(** * C01 *)

(** The round trip holds exactly for broadcast 0, short 1..127 and long 0..10239 *)
Theorem C01_address_round_trip : forall v t r tail,
  0 <= v < 65536 -> In t [ATBroadcast; ATShort; ATLong] -> Forall byte tail ->
  (exists bs, encode_address (Addr v t r) = Ok bs /\
              decode_address (bs ++ tail) = Ok (Addr v t false))
  <-> (t = ATBroadcast /\ v = 0) \/ (t = ATShort /\ 1 <= v <= 127)
      \/ (t = ATLong /\ v <= 10239).
Proof. exact address_round_trip. Qed.
Print Assumptions C01_address_round_trip.

Theorem C01_address_wire_format : forall v r, 0 <= v < 65536 ->
  encode_address (Addr v ATBroadcast r) = Ok [0] /\
  (v < 256 -> encode_address (Addr v ATShort r) = Ok [v]) /\
  (v < 16384 -> encode_address (Addr v ATLong r) = Ok [192 + v / 256; v mod 256]).
Proof. exact address_wire_format. Qed.
Print Assumptions C01_address_wire_format.

Theorem C01_above_10239 : forall v r tail, 10240 <= v < 16384 ->
  exists bs a, encode_address (Addr v ATLong r) = Ok bs /\
               decode_address (bs ++ tail) = Ok a /\
               In (atyp a) [ATReserved; ATDataTransfer; ATLogon; ATIdle] /\ aval a = 192 + v / 256.
Proof. exact address_above_10239. Qed.
Print Assumptions C01_above_10239.

Example C01_ex : encode_address (Addr 1000 ATLong false) = Ok [195; 232] /\
  decode_address [195; 232; 0x3F; 7] = Ok (Addr 1000 ATLong false) /\
  decode_address [232; 0; 1] = Ok (Addr 232 ATReserved false).
Proof. repeat split. Qed.

(** * C02 *)

Theorem C02_address_equality : forall a b,
  addr_eqb a b = true <->
  aval a = aval b /\
  (atyp a = atyp b \/
   (In (atyp a) [ATShort; ATLong] /\ In (atyp b) [ATShort; ATLong])).
Proof. exact addr_eqb_spec. Qed.
Print Assumptions C02_address_equality.

Theorem C02_address_equivalence :
  (forall a, addr_eqb a a = true) /\
  (forall a b, addr_eqb a b = addr_eqb b a) /\
  (forall a b c, addr_eqb a b = true -> addr_eqb b c = true -> addr_eqb a c = true) /\
  (forall v w t u r s, addr_eqb (Addr v t r) (Addr w u s) = addr_eqb (Addr v t false) (Addr w u false)) /\
  (forall v w, addr_eqb (Addr v ATShort false) (Addr w ATLong false) = true <-> v = w).
Proof. exact addr_eqb_equivalence. Qed.
Print Assumptions C02_address_equivalence.

Example C02_ex : addr_eqb (Addr 5 ATShort true) (Addr 5 ATLong false) = true /\
  addr_eqb (Addr 5 ATShort false) (Addr 5 ATAccessory false) = false /\
  addr_eqb (Addr 5 ATShort false) (Addr 6 ATLong false) = false.
Proof. repeat split. Qed.

(** * C03 *)

Theorem C03_first_byte_classes : forall b rest, byte b -> Forall byte rest ->
  decode_address (b :: rest) =
    match first_byte_class b, rest with
    | ATLong, c :: _ => Ok (Addr ((b - 192) * 256 + c) ATLong false)
    | ATLong, [] => UB OutOfBounds
    | k, _ => Ok (Addr b k false)
    end.
Proof. exact decode_classes. Qed.
Print Assumptions C03_first_byte_classes.

Theorem C03_no_bytes : decode_address [] = UB OutOfBounds.
Proof. exact decode_empty. Qed.
Print Assumptions C03_no_bytes.

Example C03_ex : map first_byte_class [0; 1; 127; 128; 191; 192; 231; 232; 252; 253; 254; 255]
  = [ATBroadcast; ATShort; ATShort; ATAccessory; ATAccessory; ATLong; ATLong; ATReserved;
     ATReserved; ATDataTransfer; ATLogon; ATIdle] /\ byte 231 /\ Forall byte [255].
Proof. unfold byte. split; [reflexivity|]. split; [lia|]. repeat constructor; lia. Qed.

(** * C04 *)

Theorem C04_instruction_class : forall b rest, byte b ->
  decode_instruction (b :: rest) = Ok (nibble_class (b / 16)).
Proof. exact decode_instruction_spec. Qed.
Print Assumptions C04_instruction_class.

Theorem C04_packet_class : forall p b, Forall byte p -> nth_error p 0 = Some b ->
  decode_instruction_packet p =
  match nth_error p (if (128 <=? b) && (b <? 253) then 2 else 1) with
  | Some i => Ok (nibble_class (i / 16))
  | None => UB OutOfBounds
  end.
Proof. exact decode_instruction_packet_spec. Qed.
Print Assumptions C04_packet_class.

Theorem C04_never_unknown : forall p i, Forall byte p ->
  decode_instruction_packet p = Ok i -> i <> IUnknownService /\ i <> ILogon.
Proof. exact decode_instruction_total. Qed.
Print Assumptions C04_never_unknown.

Example C04_ex : decode_instruction_packet [3; 0x3F; 0x90; 0xAC] = Ok IAdvancedOperations /\
  decode_instruction_packet [195; 232; 0xE4; 0; 7; 0] = Ok ICvLong /\
  Forall byte [195; 232; 0xE4; 0; 7; 0].
Proof. split; [reflexivity|]. split; [reflexivity|]. repeat constructor; unfold byte; lia. Qed.

(** * C05 *)

Theorem C05_words_inverse :
  (forall w, 0 <= w < 65536 -> Forall byte (uint16_2data w) /\ data2uint16 (uint16_2data w) = Ok w) /\
  (forall w, 0 <= w < 2 ^ 32 -> Forall byte (uint32_2data w) /\ data2uint32 (uint32_2data w) = Ok w) /\
  (forall a b, byte a -> byte b ->
     exists w, data2uint16 [a; b] = Ok w /\ 0 <= w < 65536 /\ uint16_2data w = [a; b]) /\
  (forall a b c d, byte a -> byte b -> byte c -> byte d ->
     exists w, data2uint32 [a; b; c; d] = Ok w /\ 0 <= w < 2 ^ 32 /\ uint32_2data w = [a; b; c; d]).
Proof. exact words_inverse. Qed.
Print Assumptions C05_words_inverse.

(** Byte order *)
Theorem C05_big_endian_16 : forall a b rest, byte a -> byte b ->
  data2uint16 (a :: b :: rest) = Ok (a * 256 + b).
Proof. exact data2uint16_spec. Qed.
Print Assumptions C05_big_endian_16.

Theorem C05_big_endian_32 : forall a b c d rest, byte a -> byte b -> byte c -> byte d ->
  data2uint32 (a :: b :: c :: d :: rest) = Ok (((a * 256 + b) * 256 + c) * 256 + d).
Proof. exact data2uint32_spec. Qed.
Print Assumptions C05_big_endian_32.

Example C05_ex : uint32_2data 0x12345678 = [0x12; 0x34; 0x56; 0x78] /\
  data2uint16 [0xFF; 0x01] = Ok 0xFF01.
Proof. repeat split. Qed.

(** * C06 *)

Theorem C06_crc8_bit_serial : forall m, Forall byte m -> crc8 m = crc_serial m.
Proof. exact crc8_serial. Qed.
Print Assumptions C06_crc8_bit_serial.

Theorem C06_crc8_residue : forall m c, Forall byte m -> byte c ->
  (crc8 (m ++ [c]) = 0 <-> c = crc8 m).
Proof. exact crc8_residue_iff. Qed.
Print Assumptions C06_crc8_residue.

(** The CRC of a packet leaves out its last byte, the XOR checksum *)
Theorem C06_crc8_packet : forall m x, Forall byte m -> crc8_packet (m ++ [x]) = Ok (crc_serial m).
Proof. exact crc8_packet_serial. Qed.
Print Assumptions C06_crc8_packet.

(** RCN-218 example, also tests/crc8.cpp *)
Example C06_ex : crc8 [0x0B; 0x0A; 0x00; 0x00; 0x8E; 0x40; 0x00; 0x0D; 0x67; 0x00; 0x01; 0x00] = 0x4C
  /\ crc8_packet [0x0B; 0x0A; 0x00; 0x00; 0x8E; 0x40; 0x00; 0x0D; 0x67; 0x00; 0x01; 0x00; 0x99] = Ok 0x4C
  /\ Forall byte [0x0B; 0x0A; 0x8E].
Proof. split; [reflexivity|]. split; [reflexivity|]. repeat constructor; unfold byte; lia. Qed.

(** * C07 *)

(** Two messages that differ, and whose bits differ only inside a window of at
    most 8 bits at any position, have different CRCs *)
Theorem C07_crc8_burst : forall m n p a b s,
  Forall byte m -> Forall byte n -> m <> n ->
  msg_bits m = p ++ a ++ s -> msg_bits n = p ++ b ++ s ->
  length a = length b -> (length a <= 8)%nat ->
  crc8 m <> crc8 n.
Proof. exact crc8_burst. Qed.
Print Assumptions C07_crc8_burst.

Theorem C07_crc8_linear : forall m n, Forall byte m -> Forall byte n -> length m = length n ->
  crc8 (xor_pairs m n) = Z.lxor (crc8 m) (crc8 n).
Proof. exact crc8_linear. Qed.
Print Assumptions C07_crc8_linear.

(** A burst over a byte boundary *)
Example C07_ex :
  msg_bits [1; 0x80; 0x01; 9] = msg_bits [1] ++ repeat false 7 ++ [true; true] ++ repeat false 7 ++ msg_bits [9] /\
  msg_bits [1; 0x00; 0x00; 9] = msg_bits [1] ++ repeat false 7 ++ [false; false] ++ repeat false 7 ++ msg_bits [9] /\
  crc8 [1; 0x80; 0x01; 9] <> crc8 [1; 0x00; 0x00; 9].
Proof. split; [reflexivity|]. split; [reflexivity|]. vm_compute. discriminate. Qed.

(** * C08 *)

Theorem C08_checksum_is_xor : forall bs, Forall byte bs -> exor bs = xor_all bs.
Proof. exact exor_spec. Qed.
Print Assumptions C08_checksum_is_xor.

Theorem C08_checksum_of_packet : forall bs c, Forall byte bs ->
  exor_packet (bs ++ [c]) = Ok (xor_all bs).
Proof. exact exor_packet_spec. Qed.
Print Assumptions C08_checksum_of_packet.

Theorem C08_closed_packets : forall bs, xor_all (closed bs) = 0.
Proof. exact closed_xor. Qed.
Print Assumptions C08_closed_packets.

(** Changing one byte is always noticed *)
Theorem C08_single_byte_error : forall l r b c, b <> c ->
  xor_all (l ++ b :: r) = 0 -> xor_all (l ++ c :: r) <> 0.
Proof. exact xor_all_change. Qed.
Print Assumptions C08_single_byte_error.

Example C08_ex : xor_all [3; 0x3F; 0x90; 0xAC] = 0 /\ exor [3; 0x3F; 0x90] = 0xAC /\
  xor_all [3; 0x3F; 0x91; 0xAC] = 1.
Proof. repeat split. Qed.

(** * C09 *)

Theorem C09_code_word : forall d, digit d -> exists c,
  encode1 d = Ok c /\ byte c /\ In (c, d) code_words /\ ones8 c = 4 /\
  c <> 0x0F /\ c <> 0xF0 /\ c <> 0x3C /\ nth (Z.to_nat c) decode_lut 0 = d.
Proof. exact encode1_spec. Qed.
Print Assumptions C09_code_word.

Theorem C09_code_injective : forall d e c, digit d -> digit e ->
  encode1 d = Ok c -> encode1 e = Ok c -> d = e.
Proof. exact encode1_inj. Qed.
Print Assumptions C09_code_injective.

Theorem C09_datagram_code : forall ds, Forall digit ds ->
  exists cs, encode_datagram ds = Ok cs /\ coded ds cs /\ length cs = length ds /\
    Forall byte cs /\ Forall (fun c => ones8 c = 4 /\ ~ In c [0x0F; 0xF0; 0x3C]) cs /\
    decode_datagram cs = ds.
Proof. exact encode_datagram_spec. Qed.
Print Assumptions C09_datagram_code.

Theorem C09_not_six_bits : forall d, byte d -> 64 <= d -> encode1 d = UB OutOfBounds.
Proof. exact encode1_outside. Qed.
Print Assumptions C09_not_six_bits.

Example C09_ex : encode_datagram [0; 1; 63] = Ok [0xAC; 0xAA; 0x33] /\
  decode_datagram [0xAC; 0xAA; 0x33] = [0; 1; 63] /\ Forall digit [0; 1; 63] /\
  acks = [0x0F; 0xF0] /\ nack = 0x3C.
Proof.
  split; [reflexivity|]. split; [reflexivity|]. split; [|split; reflexivity].
  repeat constructor; unfold digit; lia.
Qed.

(** * C10 *)

Theorem C10_datagram_with_id : forall i id data, 0 <= id < 16 -> 0 <= data < 2 ^ id_bits i ->
  exists d c, make_datagram_id i id data = Ok d /\ encode_datagram d = Ok c /\
    length c = datagram_size i /\ make_data (decode_datagram c) = Ok (id * 2 ^ id_bits i + data).
Proof. exact datagram_id_lossless. Qed.
Print Assumptions C10_datagram_with_id.

Theorem C10_datagram_digits : forall i id data, 0 <= id < 16 -> 0 <= data < 2 ^ id_bits i ->
  make_datagram_id i id data = Ok (base64 (datagram_size i) (id * 2 ^ id_bits i + data)).
Proof. exact make_datagram_id_spec. Qed.
Print Assumptions C10_datagram_digits.

Theorem C10_datagram_without_id : forall i data, 0 <= data < 2 ^ Z.of_nat (bits_val i) ->
  exists d c, make_datagram i data = Ok d /\ encode_datagram d = Ok c /\
    length c = datagram_size i /\ make_data (decode_datagram c) = Ok data.
Proof. exact datagram_lossless. Qed.
Print Assumptions C10_datagram_without_id.

Theorem C10_out_of_range : forall i id data,
  (2 ^ id_bits i <= data -> make_datagram_id i id data = UB AssertFailed) /\
  (2 ^ Z.of_nat (bits_val i) <= data -> make_datagram i data = UB AssertFailed).
Proof. exact datagram_out_of_range. Qed.
Print Assumptions C10_out_of_range.

Example C10_ex : make_datagram_id B36 7 0xDEADBEEF = Ok [31; 30; 43; 27; 59; 47] /\
  make_data [31; 30; 43; 27; 59; 47] = Ok (7 * 2 ^ 32 + 0xDEADBEEF).
Proof. repeat split. Qed.

(** * C11 *)

Theorem C11_speed_end_points : forall n, In n [14; 28; 126] ->
  scale_speed n 0 = 0 /\ scale_speed n 1 = 2 /\ scale_speed n n = 255 /\
  (forall s, 0 <= s < n -> scale_speed n s < scale_speed n (s + 1)).
Proof. exact scale_speed_table. Qed.
Print Assumptions C11_speed_end_points.

Theorem C11_speed_monotone : forall n, In n [14; 28; 126] -> forall s t, 0 <= s < t -> t <= n ->
  scale_speed n s < scale_speed n t.
Proof. exact scale_speed_mono. Qed.
Print Assumptions C11_speed_monotone.

Theorem C11_speed_range : forall n, In n [14; 28; 126] -> forall s, 0 <= s <= n ->
  0 <= scale_speed n s <= 255.
Proof. exact scale_speed_range. Qed.
Print Assumptions C11_speed_range.

Theorem C11_speed_value : forall n s, In n [14; 28; 126] -> 0 <= s <= n ->
  scale_speed n s = if s =? 0 then 0
                    else if n =? 126 then 255 * s / 126
                    else 2 + 253 * (s - 1) / (n - 1).
Proof. exact scale_speed_value. Qed.
Print Assumptions C11_speed_value.

Example C11_ex : map (scale_speed 14) [0; 1; 2; 13; 14] = [0; 2; 21; 235; 255] /\
  map (scale_speed 126) [1; 2; 63; 125; 126] = [2; 4; 127; 252; 255].
Proof. repeat split. Qed.

(** * C12 *)

Theorem C12_generators : forall v c, 0 <= v <= 10239 -> cmd_ok c -> exists p,
  generate (loco v) c = Ok p /\ p = frame v (payload c) /\
  length p = (length (wire_head v) + length (payload c) + 1)%nat /\ (length p <= 18)%nat /\
  Forall byte p /\ decode_address p = Ok (wire_address v) /\
  decode_instruction_packet p = Ok (cmd_class c) /\ xor_all p = 0.
Proof. exact generate_describes. Qed.
Print Assumptions C12_generators.

(** Address, command and arguments can be recovered from the packet *)
Theorem C12_generators_injective : forall v w c d p,
  0 <= v <= 10239 -> 0 <= w <= 10239 -> cmd_ok c -> cmd_ok d ->
  generate (loco v) c = Ok p -> generate (loco w) d = Ok p -> v = w /\ c = d.
Proof. exact generate_inj. Qed.
Print Assumptions C12_generators_injective.

(** Explicitly long addresses, including numbers below 128 *)
Theorem C12_generators_long : forall v r c, 0 <= v <= 10239 -> cmd_ok c ->
  generate (Addr v ATLong r) c = Ok (closed ([192 + v / 256; v mod 256] ++ payload c)).
Proof. exact generate_long. Qed.
Print Assumptions C12_generators_long.

Theorem C12_service_packets : forall cv b bit pos, 0 <= cv < 1024 -> byte b -> 0 <= pos < 8 ->
  make_cv_access_long_verify_service_packet cv b = Ok (closed [0x74 + cv / 256; cv mod 256; b]) /\
  make_cv_access_long_write_service_packet cv b = Ok (closed [0x7C + cv / 256; cv mod 256; b]) /\
  make_cv_access_long_verify_bit_service_packet cv bit pos
    = Ok (closed [0x78 + cv / 256; cv mod 256; 0xE0 + 8 * Z.b2z bit + pos]) /\
  make_cv_access_long_write_bit_service_packet cv bit pos
    = Ok (closed [0x78 + cv / 256; cv mod 256; 0xF0 + 8 * Z.b2z bit + pos]).
Proof. exact gen_service. Qed.
Print Assumptions C12_service_packets.

Theorem C12_service_packets_injective : forall cv b cv' b' bit pos bit' pos' p,
  0 <= cv < 1024 -> byte b -> 0 <= cv' < 1024 -> byte b' -> 0 <= pos < 8 -> 0 <= pos' < 8 ->
  (make_cv_access_long_verify_service_packet cv b = Ok p ->
   make_cv_access_long_verify_service_packet cv' b' = Ok p -> cv = cv' /\ b = b') /\
  (make_cv_access_long_write_service_packet cv b = Ok p ->
   make_cv_access_long_write_service_packet cv' b' = Ok p -> cv = cv' /\ b = b') /\
  (make_cv_access_long_verify_bit_service_packet cv bit pos = Ok p ->
   make_cv_access_long_verify_bit_service_packet cv' bit' pos' = Ok p ->
   cv = cv' /\ bit = bit' /\ pos = pos') /\
  (make_cv_access_long_write_bit_service_packet cv bit pos = Ok p ->
   make_cv_access_long_write_bit_service_packet cv' bit' pos' = Ok p ->
   cv = cv' /\ bit = bit' /\ pos = pos').
Proof. exact service_inj. Qed.
Print Assumptions C12_service_packets_injective.

Theorem C12_idle_and_reset :
  make_idle_packet = closed [0xFF; 0x00] /\ make_reset_packet = closed [0x00; 0x00].
Proof. exact gen_idle_reset. Qed.
Print Assumptions C12_idle_and_reset.

Theorem C12_logon_enable : forall g cid sid, 0 <= cid < 65536 -> byte sid ->
  make_logon_enable_packet g cid sid
  = Ok (closed [254; 252 + match g with GAll => 0 | GLoco => 1 | GAcc => 2 | GNow => 3 end; cid / 256; cid mod 256; sid]).
Proof. exact gen_logon_enable. Qed.
Print Assumptions C12_logon_enable.

Theorem C12_logon_select : forall m did sub, 0 <= m < 4096 -> 0 <= did < 2 ^ 32 -> byte sub ->
  make_logon_select_packet m did sub
  = Ok (extended [254; 0xD0 + m / 256; m mod 256; did / 2 ^ 24; (did / 2 ^ 16) mod 256;
                  (did / 256) mod 256; did mod 256; sub]).
Proof. exact gen_logon_select. Qed.
Print Assumptions C12_logon_select.

Theorem C12_logon_assign : forall m did addr,
  0 <= m < 4096 -> 0 <= did < 2 ^ 32 -> 0 <= addr < 65536 ->
  make_logon_assign_packet m did addr
  = Ok (extended [254; 0xE0 + m / 256; m mod 256; did / 2 ^ 24; (did / 2 ^ 16) mod 256;
                  (did / 256) mod 256; did mod 256; addr / 256; addr mod 256]).
Proof. exact gen_logon_assign. Qed.
Print Assumptions C12_logon_assign.

Theorem C12_logon_enable_injective : forall g cid sid g' cid' sid' p,
  0 <= cid < 65536 -> byte sid -> 0 <= cid' < 65536 -> byte sid' ->
  make_logon_enable_packet g cid sid = Ok p -> make_logon_enable_packet g' cid' sid' = Ok p ->
  g = g' /\ cid = cid' /\ sid = sid'.
Proof. exact logon_enable_inj. Qed.
Print Assumptions C12_logon_enable_injective.

Theorem C12_logon_select_assign_injective : forall m d x m' d' x' p,
  0 <= m < 4096 -> 0 <= d < 2 ^ 32 -> 0 <= m' < 4096 -> 0 <= d' < 2 ^ 32 ->
  (byte x -> byte x' ->
   make_logon_select_packet m d x = Ok p -> make_logon_select_packet m' d' x' = Ok p ->
   m = m' /\ d = d' /\ x = x') /\
  (0 <= x < 65536 -> 0 <= x' < 65536 ->
   make_logon_assign_packet m d x = Ok p -> make_logon_assign_packet m' d' x' = Ok p ->
   m = m' /\ d = d' /\ x = x').
Proof. exact logon_long_inj. Qed.
Print Assumptions C12_logon_select_assign_injective.

Theorem C12_extended_checks : forall bs, Forall byte bs ->
  crc8 (bs ++ [crc_serial bs]) = 0 /\ xor_all (extended bs) = 0.
Proof. exact extended_crc. Qed.
Print Assumptions C12_extended_checks.

Example C12_ex : generate (loco 3) (CSpeed126 0x90) = Ok [3; 0x3F; 0x90; 0xAC] /\
  generate (loco 1000) (CWriteBit 1000 true 5) = Ok [195; 232; 0xEB; 0xE8; 0xFD; 0xD5] /\
  cmd_ok (CWriteBit 1000 true 5) /\ cmd_ok (CSpeed126 0x90).
Proof. unfold cmd_ok, byte. split; [reflexivity|]. split; [reflexivity|]. lia. Qed.

(** * C13 *)

Theorem C13_timings : forall bs cfg, (length bs <= 18)%nat -> 0 <= num_preamble cfg <= 255 ->
  bytes2timings bs cfg =
  Ok (half_bits (bit1_duration cfg) (bit0_duration cfg)
        (track_bits (Z.to_nat (num_preamble cfg)) bs)).
Proof. exact bytes2timings_spec. Qed.
Print Assumptions C13_timings.

Theorem C13_timings_length : forall d1 d0 n bs,
  length (half_bits d1 d0 (track_bits n bs)) = (2 * (n + 9 * length bs + 1))%nat.
Proof. exact timings_length. Qed.
Print Assumptions C13_timings_length.

Example C13_ex : bytes2timings [0xA5] (TxConfig 2 58 100 false false)
  = Ok [58; 58; 58; 58; 100; 100; 58; 58; 100; 100; 58; 58; 100; 100; 100; 100; 58; 58; 100; 100; 58; 58; 58; 58].
Proof. reflexivity. Qed.
