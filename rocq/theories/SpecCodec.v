(** Independent specifications of the codecs, written with arithmetic and lists
    only. From the model only the types [address], [instruction] and [bits] are
    used, none of the functions under test. *)
From Verif Require Import Prelude Address Instruction Datagram.

(** RCN-211: address part of a packet for locomotive number [v] *)
Definition wire_head (v : Z) : list Z :=
  if v <=? 127 then [v] else [192 + v / 256; v mod 256].

(** Number and class of what [wire_head v] means on the track *)
Definition wire_address (v : Z) : address :=
  Addr v (if v =? 0 then ATBroadcast else if v <=? 127 then ATShort else ATLong) false.

(** XOR of all elements *)
Definition xor_all (bs : list Z) : Z := fold_right Z.lxor 0 bs.

(** Bytes followed by their checksum *)
Definition closed (bs : list Z) : list Z := bs ++ [xor_all bs].

(** A DCC packet: address, payload, checksum *)
Definition frame (v : Z) (payload : list Z) : list Z :=
  wire_head v ++ payload ++ [xor_all (wire_head v ++ payload)].

(** RCN-211/-218: classes of first bytes *)
Definition first_byte_class (b : Z) : atype :=
  if b =? 0 then ATBroadcast
  else if b <? 128 then ATShort
  else if b <? 192 then ATAccessory
  else if b <? 232 then ATLong
  else if b <? 253 then ATReserved
  else nth (Z.to_nat (b - 253)) [ATDataTransfer; ATLogon; ATIdle] ATUnknown.

(** RCN-212: instruction class by top nibble *)
Definition nibble_class (n : Z) : instruction :=
  nth (Z.to_nat n)
    [IDecoderControl; IConsistControl; IAdvancedOperations; IAdvancedOperations;
     ISpeedDirection; ISpeedDirection; ISpeedDirection; ISpeedDirection;
     IFunctionGroup; IFunctionGroup; IFunctionGroup; IFunctionGroup;
     IFeatureExpansion; IFeatureExpansion; ICvLong; ICvShort] IUnknownService.

(** Bit-serial CRC, x^8+x^5+x^4+1 reflected (0x8C), bits least significant first *)
Definition crc_shift (s : Z) (x : bool) : Z :=
  Z.lxor (s / 2) (if xorb (Z.odd s) x then 140 else 0).
Definition lsb_bits (b : Z) : list bool :=
  map (fun i => Z.odd (b / 2 ^ i)) [0; 1; 2; 3; 4; 5; 6; 7].
Definition crc_bits (bits : list bool) : Z := fold_left crc_shift bits 0.
Definition msg_bits (m : list Z) : list bool := flat_map lsb_bits m.
Definition crc_serial (m : list Z) : Z := crc_bits (msg_bits m).

(** Number of ones among the low eight bits *)
Definition ones8 (b : Z) : Z := fold_right (fun (x : bool) n => Z.b2z x + n) 0 (lsb_bits b).

(** RCN-217 4-of-8 code: code words in ascending order with their values *)
Definition code_words : list (Z * Z) :=
  [(0x17, 51); (0x1B, 52); (0x1D, 53); (0x1E, 54); (0x27, 58); (0x2B, 59); (0x2D, 60);
   (0x2E, 55); (0x33, 63); (0x35, 61); (0x36, 56); (0x39, 62); (0x3A, 57); (0x47, 36);
   (0x4B, 35); (0x4D, 34); (0x4E, 33); (0x53, 31); (0x55, 30); (0x56, 32); (0x59, 29);
   (0x5A, 28); (0x5C, 27); (0x63, 25); (0x65, 24); (0x66, 26); (0x69, 23); (0x6A, 22);
   (0x6C, 21); (0x71, 37); (0x72, 20); (0x74, 19); (0x78, 50); (0x8B, 14); (0x8D, 13);
   (0x8E, 12); (0x93, 10); (0x95, 9); (0x96, 11); (0x99, 8); (0x9A, 7); (0x9C, 6);
   (0xA3, 4); (0xA5, 3); (0xA6, 5); (0xA9, 2); (0xAA, 1); (0xAC, 0); (0xB1, 15);
   (0xB2, 16); (0xB4, 17); (0xB8, 18); (0xC5, 43); (0xC6, 48); (0xC9, 42); (0xCA, 47);
   (0xCC, 49); (0xD1, 41); (0xD2, 46); (0xD4, 45); (0xD8, 44); (0xE2, 40); (0xE4, 39);
   (0xE8, 38)].

(** The [n] base-64 digits of [d], most significant first *)
Fixpoint base64 (n : nat) (d : Z) : list Z :=
  match n with
  | O => []
  | S m => (d / 64 ^ Z.of_nat m) mod 64 :: base64 m d
  end.

(** Value of a digit string *)
Definition from_base64 (ds : list Z) : Z := fold_left (fun a d => a * 64 + d) ds 0.

(** Bit sequence of a packet on the track *)
Definition msb_first (b : Z) : list bool :=
  map (fun i => (b / 2 ^ i) mod 2 =? 1) [7; 6; 5; 4; 3; 2; 1; 0].
Definition track_bits (preamble : nat) (bs : list Z) : list bool :=
  repeat true preamble ++ flat_map (fun b => false :: msb_first b) bs ++ [true].
(** Each bit is two half bits of the given duration *)
Definition half_bits (d1 d0 : Z) (bits : list bool) : list Z :=
  flat_map (fun x : bool => let d := if x then d1 else d0 in [d; d]) bits.

(** A 6 bit value *)
Definition digit (d : Z) : Prop := 0 <= d < 64.

(** Code words of a digit string, by the specification table *)
Inductive coded : list Z -> list Z -> Prop :=
| coded_nil : coded [] []
| coded_cons : forall d ds c cs, In (c, d) code_words -> coded ds cs -> coded (d :: ds) (c :: cs).

(** Number of data bits of a datagram with ID *)
Definition id_bits (i : bits) : Z :=
  match i with B12 => 8 | B18 => 14 | B24 => 20 | B36 => 32 | B48 => 44 end.

(** Bitwise XOR of two messages *)
Fixpoint xor_pairs (a b : list Z) : list Z :=
  match a, b with
  | x :: a, y :: b => Z.lxor x y :: xor_pairs a b
  | _, _ => []
  end.

(** Extended packets: content, CRC over the content, checksum over both *)
Definition extended (bs : list Z) : list Z := closed (bs ++ [crc_serial bs]).

(** Commands to a locomotive decoder, RCN-212/-214, with the payload bytes, the
    admissible arguments and the instruction class of each *)
Inductive loco_cmd :=
| CSpeed126 (s : Z) | CSpeedFunctions (s f7_f0 : Z) (more : list Z) | CSpeed28 (s : Z)
| CF4_F0 (s : Z) | CF8_F5 (s : Z) | CF12_F9 (s : Z) | CF20_F13 (s : Z) | CF28_F21 (s : Z)
| CBinaryShort (d : Z) | CBinaryLong (d h : Z)
| CVerify (cv b : Z) | CWrite (cv b : Z)
| CVerifyBit (cv : Z) (bit : bool) (pos : Z) | CWriteBit (cv : Z) (bit : bool) (pos : Z).

Definition cmd_ok (c : loco_cmd) : Prop :=
  match c with
  | CSpeed126 s | CF20_F13 s | CF28_F21 s | CBinaryShort s => byte s
  | CSpeedFunctions s f more => byte s /\ byte f /\ Forall byte more /\ (length more <= 3)%nat
  | CSpeed28 s => 0 <= s < 64
  | CF4_F0 s => 0 <= s < 32
  | CF8_F5 s | CF12_F9 s => 0 <= s < 16
  | CBinaryLong d h => byte d /\ byte h
  | CVerify cv b | CWrite cv b => 0 <= cv < 1024 /\ byte b
  | CVerifyBit cv _ pos | CWriteBit cv _ pos => 0 <= cv < 1024 /\ 0 <= pos < 8
  end.

Definition payload (c : loco_cmd) : list Z :=
  match c with
  | CSpeed126 s => [0x3F; s]
  | CSpeedFunctions s f more => 0x3C :: s :: f :: more
  | CSpeed28 s => [0x40 + s]
  | CF4_F0 s => [0x80 + 16 * (s mod 2) + s / 2]
  | CF8_F5 s => [0xB0 + s]
  | CF12_F9 s => [0xA0 + s]
  | CF20_F13 s => [0xDE; s]
  | CF28_F21 s => [0xDF; s]
  | CBinaryShort d => [0xDD; d]
  | CBinaryLong d h => [0xC0; d; h]
  | CVerify cv b => [0xE4 + cv / 256; cv mod 256; b]
  | CWrite cv b => [0xEC + cv / 256; cv mod 256; b]
  | CVerifyBit cv bit pos => [0xE8 + cv / 256; cv mod 256; 0xE0 + 8 * Z.b2z bit + pos]
  | CWriteBit cv bit pos => [0xE8 + cv / 256; cv mod 256; 0xF0 + 8 * Z.b2z bit + pos]
  end.

Definition cmd_class (c : loco_cmd) : instruction :=
  match c with
  | CSpeed126 _ | CSpeedFunctions _ _ _ => IAdvancedOperations
  | CSpeed28 _ => ISpeedDirection
  | CF4_F0 _ | CF8_F5 _ | CF12_F9 _ => IFunctionGroup
  | CF20_F13 _ | CF28_F21 _ | CBinaryShort _ | CBinaryLong _ _ => IFeatureExpansion
  | CVerify _ _ | CWrite _ _ | CVerifyBit _ _ _ | CWriteBit _ _ _ => ICvLong
  end.
