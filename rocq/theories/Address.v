(** Address encoding and decoding (include/dcc/address.hpp). *)
From Verif Require Import Prelude.

(** enum in struct Address, address.hpp:42-52 *)
Inductive atype :=
| ATUnknown | ATBroadcast | ATShort | ATAccessory | ATLong | ATReserved
| ATDataTransfer | ATLogon | ATIdle.

Definition atype_eqb (a b : atype) : bool :=
  match a, b with
  | ATUnknown, ATUnknown | ATBroadcast, ATBroadcast | ATShort, ATShort
  | ATAccessory, ATAccessory | ATLong, ATLong | ATReserved, ATReserved
  | ATDataTransfer, ATDataTransfer | ATLogon, ATLogon | ATIdle, ATIdle => true
  | _, _ => false
  end.

(** struct Address, address.hpp:22-55: value (uint16_t), type, reversed *)
Record address := Addr { aval : Z; atyp : atype; arev : bool }.

(** Address{} (value-initialized), address.hpp:40-54 *)
Definition addr0 : address := Addr 0 ATUnknown false.

(** Address::operator=(value_type), address.hpp:25-28: only the value changes *)
Definition addr_set_value (a : address) (v : Z) : address :=
  Addr v (atyp a) (arev a).

Definition is_loco_type (t : atype) : bool :=
  match t with ATShort | ATLong => true | _ => false end.

(** operator==, address.hpp:30-35 *)
Definition addr_eqb (l r : address) : bool :=
  if is_loco_type (atyp l) && is_loco_type (atyp r)
  then aval l =? aval r
  else (aval l =? aval r) && atype_eqb (atyp l) (atyp r).

(** decode_address, address.hpp:64-88. The input is the byte sequence from the
    iterator to the end of the underlying storage; dereferencing past it is
    [OutOfBounds]. All overloads (address.hpp:95-105) forward to this one. *)
Definition decode_address (bs : list Z) : res address :=
  match bs with
  | [] => UB OutOfBounds
  | b :: rest =>
      if b =? 0 then Ok (Addr b ATBroadcast false)
      else if b <=? 127 then Ok (Addr b ATShort false)
      else if b <=? 191 then Ok (Addr b ATAccessory false)
      else if b <=? 231 then
        match rest with
        | [] => UB OutOfBounds
        | c :: _ =>
            Ok (Addr (u16 (Z.land (Z.lor (Z.shiftl b 8) c) 0x3FFF)) ATLong false)
        end
      else if b <=? 252 then Ok (Addr b ATReserved false)
      else if b =? 253 then Ok (Addr b ATDataTransfer false)
      else if b =? 254 then Ok (Addr b ATLogon false)
      else Ok (Addr b ATIdle false)
  end.

(** encode_address, address.hpp:113-132. Returns the bytes written. The Reserved
    branch asserts. *)
Definition encode_address (a : address) : res (list Z) :=
  match atyp a with
  | ATUnknown => Ok []
  | ATBroadcast => Ok [0]
  | ATShort => Ok [u8 (aval a)]
  | ATAccessory => Ok []
  | ATLong => Ok [u8 (Z.lor 0xC0 (Z.shiftr (aval a) 8)); u8 (aval a)]
  | ATReserved => UB AssertFailed
  | ATDataTransfer => Ok [253]
  | ATLogon => Ok [254]
  | ATIdle => Ok [255]
  end.

(** {addr, addr <= 127u ? Short : Long}, utility.hpp:134,165,217,... used by all
    overloads taking a plain address value *)
Definition loco (v : Z) : address :=
  Addr v (if v <=? 127 then ATShort else ATLong) false.
