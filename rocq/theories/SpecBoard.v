(** The LEDs of the decoder board of examples/stm32 under any commands *)
From Verif Require Import Prelude Address SpecCodec SpecConf SpecCv SpecLayout SpecLayout2 Stm32.

(** Green: a speed step other than 0 or an emergency stop was commanded last. Yellow: F3.
    The board is locomotive 3, without consist. *)
Definition lamps (o : order) (l : leds) : leds :=
  if negb ((fst o =? 0) || (fst o =? 3)) then l
  else match snd o with
       | CSpeed126 s => (negb (s mod 128 =? 0), snd l)
       | CSpeed28 s => (negb (s mod 16 =? 0), snd l)
       | CSpeedFunctions s f _ => (negb (s mod 128 =? 0), bit_of f 3)
       | CF4_F0 s => (fst l, bit_of s 3)
       | _ => l
       end.

(** Commands the board is built for: no CVs are written, bits of them are not accessed,
    functions are combined with a speed up to F23 *)
Definition simple (d : loco_cmd) : Prop :=
  match d with
  | CWrite _ _ | CWriteBit _ _ _ | CVerifyBit _ _ _ => False
  | CSpeedFunctions _ _ more => (length more <= 2)%nat
  | _ => True
  end.
Definition simple_for3 (o : order) : Prop := fst o = 0 \/ fst o = 3 -> simple (snd o).

(** At rest: stopped in any way *)
Definition stops (d : loco_cmd) : bool :=
  match d with
  | CSpeed126 s | CSpeedFunctions s _ _ => s mod 128 <=? 1
  | CSpeed28 s => s mod 16 <=? 1
  | _ => false
  end.

(** The CVs of the board; others read as 0 *)
Definition board_memory : Z -> Z := fun a => if (0 <=? a) && (a <? 29) then nth (Z.to_nat a) stm32_table 0 else 0.
(** Accesses the board is able to: reading bytes, writing bytes to its own CVs, to CV1
    addresses up to 127 *)
Definition board_able (x : seen) : Prop :=
  match x with
  | Access (Store a v) => 0 <= a < 29 /\ (a = 0 -> v < 128)
  | Access (StoreBit _ _ _) | Access (CheckBit _ _ _) => False
  | _ => True
  end.
