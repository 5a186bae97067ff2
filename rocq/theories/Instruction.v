(** Instruction classification (include/dcc/instruction.hpp). *)
From Verif Require Import Prelude.

(** enum class Instruction, instruction.hpp:19-30 *)
Inductive instruction :=
| IUnknownService | IDecoderControl | IConsistControl | IAdvancedOperations
| ISpeedDirection | IFunctionGroup | IFeatureExpansion | ICvLong | ICvShort
| ILogon.

(** switch of decode_instruction, instruction.hpp:39-60, on the dereferenced
    byte *)
Definition classify (b : Z) : instruction :=
  let n := Z.land b 0xF0 in
  if n =? 0x00 then IDecoderControl
  else if n =? 0x10 then IConsistControl
  else if (n =? 0x20) || (n =? 0x30) then IAdvancedOperations
  else if (n =? 0x40) || (n =? 0x50) || (n =? 0x60) || (n =? 0x70)
  then ISpeedDirection
  else if (n =? 0x80) || (n =? 0x90) || (n =? 0xA0) || (n =? 0xB0)
  then IFunctionGroup
  else if (n =? 0xC0) || (n =? 0xD0) then IFeatureExpansion
  else if n =? 0xE0 then ICvLong
  else if n =? 0xF0 then ICvShort
  else if b =? 0xFE then ILogon
  else IUnknownService.

(** decode_instruction(InputIt) and the span overload, instruction.hpp:37-68 *)
Definition decode_instruction (bs : list Z) : res instruction :=
  match bs with
  | [] => UB OutOfBounds
  | b :: _ => Ok (classify b)
  end.

(** decode_instruction(Packet const&), instruction.hpp:74-77 *)
Definition decode_instruction_packet (p : list Z) : res instruction :=
  match p with
  | [] => UB OutOfBounds
  | b :: _ =>
      let offset := if (128 <=? b) && (b <=? 252) then 1%nat else 0%nat in
      decode_instruction (skipn (1 + offset) p)
  end.
