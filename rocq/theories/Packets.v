(** Packet generators (include/dcc/utility.hpp). *)
From Verif Require Import Prelude Address Checksum.

(** DCC_MAX_PACKET_SIZE, CMakeLists.txt:31-33, packet.hpp:18 *)
Definition max_packet_size : nat := 18.

(** uint16_2data / uint32_2data, utility.hpp:48-65 *)
Definition uint16_2data (w : Z) : list Z :=
  [u8 (Z.shiftr (Z.land w 0xFF00) 8); u8 (Z.land w 0x00FF)].
Definition uint32_2data (w : Z) : list Z :=
  [u8 (Z.shiftr (Z.land w 0xFF000000) 24); u8 (Z.shiftr (Z.land w 0x00FF0000) 16);
   u8 (Z.shiftr (Z.land w 0x0000FF00) 8); u8 (Z.land w 0x000000FF)].

(** data2uint16 / data2uint32, utility.hpp:30-41, reading from a byte pointer *)
Definition data2uint16 (d : list Z) : res Z :=
  match d with
  | a :: b :: _ => Ok (u16 (Z.lor (Z.shiftl a 8) b))
  | _ => UB OutOfBounds
  end.
Definition data2uint32 (d : list Z) : res Z :=
  match d with
  | a :: b :: c :: e :: _ =>
      Ok (u32 (Z.lor (Z.lor (Z.lor (Z.shiftl a 24) (Z.shiftl b 16)) (Z.shiftl c 8)) e))
  | _ => UB OutOfBounds
  end.

(** Common tail of all generators, e.g. utility.hpp:116-118:
    [*last = exor({first, last}); packet.resize(...)]. Writing past the storage of
    the packet is [PacketFull]. *)
Definition seal (bs : list Z) : res (list Z) :=
  let p := bs ++ [exor bs] in
  if (length p <=? max_packet_size)%nat then Ok p else UB PacketFull.

(** Common head, e.g. utility.hpp:109-111: encode the address, then the payload *)
Definition make_packet (a : address) (payload : list Z) : res (list Z) :=
  rbind (encode_address a) (fun h => seal (h ++ payload)).

(** make_idle_packet, make_reset_packet, utility.hpp:90,95 *)
Definition make_idle_packet : list Z := [0xFF; 0x00; 0xFF].
Definition make_reset_packet : list Z := [0x00; 0x00; 0x00].

(** utility.hpp:104-119; [fs] are the variadic arguments, truncated to bytes *)
Definition make_advanced_operations_speed_direction_and_functions_packet
    (a : address) (rggggggg f7_f0 : Z) (fs : list Z) : res (list Z) :=
  make_packet a (0x3C :: rggggggg :: f7_f0 :: map u8 fs).

(** utility.hpp:145-155 *)
Definition make_advanced_operations_speed_packet (a : address) (rggggggg : Z) :=
  make_packet a [0x3F; rggggggg].

(** utility.hpp:169-172, 182-185: not implemented, always an empty packet *)
Definition make_advanced_operations_restricted_speed_packet (a : address) : list Z := [].
Definition make_advanced_operations_analog_function_group_packet (a : address) : list Z := [].

(** utility.hpp:199-207. The implicit narrowing to uint8_t is a no-op. *)
Definition make_speed_and_direction_packet (a : address) (rggggg : Z) :=
  make_packet a [u8 (Z.lor 0x40 rggggg)].

(** utility.hpp:225-234 *)
Definition make_function_group_f4_f0_packet (a : address) (state : Z) :=
  make_packet a
    [u8 (Z.lor (Z.lor 0x80 (Z.shiftl (Z.land state 1) 4)) (Z.shiftr (Z.land state 0x1F) 1))].

(** utility.hpp:252-260 *)
Definition make_function_group_f8_f5_packet (a : address) (state : Z) :=
  make_packet a [u8 (Z.lor 0xB0 (Z.land state 0xF))].

(** utility.hpp:278-286 *)
Definition make_function_group_f12_f9_packet (a : address) (f12_f9 : Z) :=
  make_packet a [u8 (Z.lor 0xA0 (Z.land f12_f9 0xF))].

(** utility.hpp:304-314 *)
Definition make_feature_expansion_f20_f13_packet (a : address) (f20_f13 : Z) :=
  make_packet a [0xDE; f20_f13].

(** utility.hpp:332-342 *)
Definition make_feature_expansion_f28_f21_packet (a : address) (f28_f21 : Z) :=
  make_packet a [0xDF; f28_f21].

(** utility.hpp:360-369 *)
Definition make_binary_state_short_packet (a : address) (dlllllll : Z) :=
  make_packet a [0xDD; dlllllll].

(** utility.hpp:388-400 *)
Definition make_binary_state_long_packet (a : address) (dlllllll hhhhhhhh : Z) :=
  make_packet a [0xC0; dlllllll; hhhhhhhh].

(** First byte of a CV access, e.g. utility.hpp:427: op | (cv_addr & 0x3FF) >> 8 *)
Definition cv_op (op cv_addr : Z) : Z :=
  u8 (Z.lor op (Z.shiftr (Z.land cv_addr 0x3FF) 8)).

(** Data byte of a bit manipulation, utility.hpp:496-497, 534-535 *)
Definition cv_bit_data (op : Z) (bit : bool) (pos : Z) : Z :=
  u8 (Z.lor (Z.lor op (Z.shiftl (Z.b2z bit) 3)) (Z.land pos 7)).

(** utility.hpp:421-433 *)
Definition make_cv_access_long_verify_packet (a : address) (cv_addr b : Z) :=
  make_packet a [cv_op 0xE4 cv_addr; u8 cv_addr; b].

(** utility.hpp:454-465 *)
Definition make_cv_access_long_write_packet (a : address) (cv_addr b : Z) :=
  make_packet a [cv_op 0xEC cv_addr; u8 cv_addr; b].

(** utility.hpp:487-501 *)
Definition make_cv_access_long_verify_bit_packet
    (a : address) (cv_addr : Z) (bit : bool) (pos : Z) :=
  make_packet a [cv_op 0xE8 cv_addr; u8 cv_addr; cv_bit_data 0xE0 bit pos].

(** utility.hpp:525-539 *)
Definition make_cv_access_long_write_bit_packet
    (a : address) (cv_addr : Z) (bit : bool) (pos : Z) :=
  make_packet a [cv_op 0xE8 cv_addr; u8 cv_addr; cv_bit_data 0xF0 bit pos].

(** utility.hpp:561-572 *)
Definition make_cv_access_long_verify_service_packet (cv_addr b : Z) :=
  seal [cv_op 0x74 cv_addr; u8 cv_addr; b].

(** utility.hpp:579-590 *)
Definition make_cv_access_long_write_service_packet (cv_addr b : Z) :=
  seal [cv_op 0x7C cv_addr; u8 cv_addr; b].

(** utility.hpp:598-611 *)
Definition make_cv_access_long_verify_bit_service_packet
    (cv_addr : Z) (bit : bool) (pos : Z) :=
  seal [cv_op 0x78 cv_addr; u8 cv_addr; cv_bit_data 0xE0 bit pos].

(** utility.hpp:619-632 *)
Definition make_cv_access_long_write_bit_service_packet
    (cv_addr : Z) (bit : bool) (pos : Z) :=
  seal [cv_op 0x78 cv_addr; u8 cv_addr; cv_bit_data 0xF0 bit pos].

(** enum class AddressGroup, address_group.hpp:18-23, by its underlying value *)
Inductive address_group := GAll | GLoco | GAcc | GNow.
Definition group_val (g : address_group) : Z :=
  match g with GAll => 0 | GLoco => 1 | GAcc => 2 | GNow => 3 end.

(** utility.hpp:640-651 *)
Definition make_logon_enable_packet (gg : address_group) (cid session_id : Z) :=
  make_packet (Addr 254 ATLogon false)
    ([u8 (Z.lor 0xFC (group_val gg))] ++ uint16_2data cid ++ [session_id]).

(** utility.hpp:666-671 / 690-693: append CRC over everything so far, then seal *)
Definition seal_crc (bs : list Z) : res (list Z) := seal (bs ++ [crc8 bs]).

(** utility.hpp:658-673 *)
Definition make_logon_select_packet (manufacturer_id did subcommand : Z) :=
  rbind (encode_address (Addr 254 ATLogon false)) (fun h =>
  seal_crc (h ++ [u8 (Z.lor 0xD0 (Z.shiftr manufacturer_id 8)); u8 manufacturer_id]
              ++ uint32_2data did ++ [subcommand])).

(** utility.hpp:681-696 *)
Definition make_logon_assign_packet (manufacturer_id did addr : Z) :=
  rbind (encode_address (Addr 254 ATLogon false)) (fun h =>
  seal_crc (h ++ [u8 (Z.lor 0xE0 (Z.shiftr manufacturer_id 8)); u8 manufacturer_id]
              ++ uint32_2data did ++ uint16_2data addr)).
