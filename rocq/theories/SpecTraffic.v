(** Several decoders at one track *)
From Verif Require Import Prelude Address SpecCodec CodecProofs2 RxState Rx SpecRx SpecExec SpecConf SpecCv SpecLayout SpecLayout2.

(** Orders a decoder with CVs [c] answers to *)
Definition mine (c : Z -> Z) (o : order) : bool := answers c (fst o).

(** The command leaves the CVs alone that tell which numbers a decoder answers to *)
Definition keeps_number (o : order) : Prop :=
  match snd o with
  | CWrite a _ | CWriteBit a _ _ => ~ In (a + 1) [1; 17; 18; 19; 20; 29]
  | _ => True
  end.

(** Numbers for which a decoder with CVs [c] may speak in channel 2: its own, and that of
    its consist if CV29 bit 3 and CV20 bit 7 are set *)
Definition speaks_for (c : Z -> Z) (n : Z) : bool :=
  has_number (own_address c) n || ((bit_of (cv c 29) 3 && bit_of (cv c 20) 7) && (aval (consist_address c) =? n)).

(** What a command that reads is to be answered with *)
Definition value_read (d : loco_cmd) (c : Z -> Z) : option Z :=
  match d with
  | CVerify a _ => Some (c a)
  | CVerifyBit a _ k => Some (Z.b2z (bit_of (c a) k))
  | _ => None
  end.
