(** BiDi datagrams (include/dcc/bidi/datagram.hpp). *)
From Verif Require Import Prelude.

(** detail::encode_lut, bidi/datagram.hpp:22-28 *)
Definition encode_lut : list Z :=
  [
   0xAC; 0xAA; 0xA9; 0xA5; 0xA3; 0xA6; 0x9C; 0x9A; 0x99; 0x95; 0x93; 0x96;
   0x8E; 0x8D; 0x8B; 0xB1; 0xB2; 0xB4; 0xB8; 0x74; 0x72; 0x6C; 0x6A; 0x69;
   0x65; 0x63; 0x66; 0x5C; 0x5A; 0x59; 0x55; 0x53; 0x56; 0x4E; 0x4D; 0x4B;
   0x47; 0x71; 0xE8; 0xE4; 0xE2; 0xD1; 0xC9; 0xC5; 0xD8; 0xD4; 0xD2; 0xCA;
   0xC6; 0xCC; 0x78; 0x17; 0x1B; 0x1D; 0x1E; 0x2E; 0x36; 0x3A; 0x27; 0x2B;
   0x2D; 0x35; 0x39; 0x33
  ].

(** detail::decode_lut, bidi/datagram.hpp:30-54 *)
Definition decode_lut : list Z :=
  [
   0x00; 0x00; 0x00; 0x00; 0x00; 0x00; 0x00; 0x00; 0x00; 0x00; 0x00; 0x00;
   0x00; 0x00; 0x00; 0x00; 0x00; 0x00; 0x00; 0x00; 0x00; 0x00; 0x00; 0x33;
   0x00; 0x00; 0x00; 0x34; 0x00; 0x35; 0x36; 0x00; 0x00; 0x00; 0x00; 0x00;
   0x00; 0x00; 0x00; 0x3A; 0x00; 0x00; 0x00; 0x3B; 0x00; 0x3C; 0x37; 0x00;
   0x00; 0x00; 0x00; 0x3F; 0x00; 0x3D; 0x38; 0x00; 0x00; 0x3E; 0x39; 0x00;
   0x00; 0x00; 0x00; 0x00; 0x00; 0x00; 0x00; 0x00; 0x00; 0x00; 0x00; 0x24;
   0x00; 0x00; 0x00; 0x23; 0x00; 0x22; 0x21; 0x00; 0x00; 0x00; 0x00; 0x1F;
   0x00; 0x1E; 0x20; 0x00; 0x00; 0x1D; 0x1C; 0x00; 0x1B; 0x00; 0x00; 0x00;
   0x00; 0x00; 0x00; 0x19; 0x00; 0x18; 0x1A; 0x00; 0x00; 0x17; 0x16; 0x00;
   0x15; 0x00; 0x00; 0x00; 0x00; 0x25; 0x14; 0x00; 0x13; 0x00; 0x00; 0x00;
   0x32; 0x00; 0x00; 0x00; 0x00; 0x00; 0x00; 0x00; 0x00; 0x00; 0x00; 0x00;
   0x00; 0x00; 0x00; 0x00; 0x00; 0x00; 0x00; 0x0E; 0x00; 0x0D; 0x0C; 0x00;
   0x00; 0x00; 0x00; 0x0A; 0x00; 0x09; 0x0B; 0x00; 0x00; 0x08; 0x07; 0x00;
   0x06; 0x00; 0x00; 0x00; 0x00; 0x00; 0x00; 0x04; 0x00; 0x03; 0x05; 0x00;
   0x00; 0x02; 0x01; 0x00; 0x00; 0x00; 0x00; 0x00; 0x00; 0x0F; 0x10; 0x00;
   0x11; 0x00; 0x00; 0x00; 0x12; 0x00; 0x00; 0x00; 0x00; 0x00; 0x00; 0x00;
   0x00; 0x00; 0x00; 0x00; 0x00; 0x2B; 0x30; 0x00; 0x00; 0x2A; 0x2F; 0x00;
   0x31; 0x00; 0x00; 0x00; 0x00; 0x29; 0x2E; 0x00; 0x2D; 0x00; 0x00; 0x00;
   0x2C; 0x00; 0x00; 0x00; 0x00; 0x00; 0x00; 0x00; 0x00; 0x00; 0x28; 0x00;
   0x27; 0x00; 0x00; 0x00; 0x26; 0x00; 0x00; 0x00; 0x00; 0x00; 0x00; 0x00;
   0x00; 0x00; 0x00; 0x00; 0x00; 0x00; 0x00; 0x00; 0x00; 0x00; 0x00; 0x00;
   0x00; 0x00; 0x00; 0x00
  ].

(** acks and nack, bidi/datagram.hpp:61,64 *)
Definition acks : list Z := [0x0F; 0xF0].
Definition nack : Z := 0x3C.

(** enum class Bits, bidi/datagram.hpp:67 *)
Inductive bits := B12 | B18 | B24 | B36 | B48.
Definition bits_val (i : bits) : nat :=
  match i with B12 => 12 | B18 => 18 | B24 => 24 | B36 => 36 | B48 => 48 end%nat.

(** datagram_size, bidi/datagram.hpp:72-73 *)
Definition datagram_size (i : bits) : nat := Nat.div (bits_val i + 4) 6.

(** The loop of make_datagram, bidi/datagram.hpp:98-101 and 117-120: fill [n]
    entries from the back with 6 bit digits. Returns the digits in storage order
    and the remaining data. *)
Fixpoint digits6 (n : nat) (data : Z) (acc : list Z) : list Z * Z :=
  match n with
  | O => (acc, data)
  | S m => digits6 m (Z.shiftr data 6) (Z.land data 0x3F :: acc)
  end.

(** make_datagram with ID, bidi/datagram.hpp:93-104. [data] is an unsigned
    integer; the assert is an outcome of its own. *)
Definition make_datagram_id (i : bits) (id data : Z) : res (list Z) :=
  let n := datagram_size i in
  if data <? 2 ^ (Z.of_nat n * 6 - 4) then
    let '(tl, rest) := digits6 (n - 1) data [] in
    Ok (u8 (Z.lor (Z.shiftl id 2) (Z.land rest 3)) :: tl)
  else UB AssertFailed.

(** make_datagram without ID, bidi/datagram.hpp:112-122 *)
Definition make_datagram (i : bits) (data : Z) : res (list Z) :=
  let n := datagram_size i in
  if data <? 2 ^ (Z.of_nat n * 6) then Ok (fst (digits6 n data []))
  else UB AssertFailed.

(** detail::encode_lut[b], bidi/datagram.hpp:133 *)
Definition encode1 (b : Z) : res Z :=
  match nth_error encode_lut (Z.to_nat b) with
  | Some v => Ok v
  | None => UB OutOfBounds
  end.

(** encode_datagram, bidi/datagram.hpp:129-136 *)
Fixpoint encode_datagram (d : list Z) : res (list Z) :=
  match d with
  | [] => Ok []
  | b :: r => rbind (encode1 b) (fun v => rbind (encode_datagram r) (fun vs => Ok (v :: vs)))
  end.

(** decode_datagram, bidi/datagram.hpp:143-150. Input bytes are uint8_t, so the
    256 entry table is never left. *)
Definition decode_datagram (d : list Z) : list Z :=
  map (fun b => nth (Z.to_nat b) decode_lut 0) d.

(** make_data, bidi/datagram.hpp:157-166: uint64_t accumulator *)
Definition make_data (d : list Z) : res Z :=
  let v := fold_left (fun a b => Z.lor (u64 (Z.shiftl a 6)) (Z.land b 0x3F)) d 0 in
  if v <? 2 ^ (Z.of_nat (length d) * 6) then Ok v else UB AssertFailed.
