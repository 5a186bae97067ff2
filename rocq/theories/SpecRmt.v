(** What the RMT encoder has to put on the track. Uses only the types of the
    configuration and the symbols from Rmt.v. *)
From Verif Require Import Prelude SpecCodec Rmt.

(** Documented ranges of a configuration (comments of rmt_dcc_encoder.h) *)
Definition within_ranges (c : rmt_config) : Prop :=
  17 <= rc_num_preamble c <= 30 /\
  (rc_bidibit c = 0 \/ 57 <= rc_bidibit c <= 61) /\
  56 <= rc_bit1 c <= 60 /\ 97 <= rc_bit0 c <= 114 /\ rc_endbit c <= 60.

(** A symbol is two half bits, the second with the opposite level *)
Definition symbol (c : rmt_config) (d0 d1 : Z) : rmt_symbol :=
  Sym d0 (rc_level0 c) d1 (negb (rc_level0 c)).
Definition bit_symbol (c : rmt_config) (x : bool) : rmt_symbol :=
  let d := if x then rc_bit1 c else rc_bit0 c in symbol c d d.
Definition last_symbol (c : rmt_config) : rmt_symbol :=
  symbol c (rc_bit1 c) (if rc_endbit c =? 0 then rc_bit1 c else rc_endbit c).

(** Everything in front of the first start bit. The cutout belongs to the packet
    before, so there is none in front of the first packet after creation or reset. *)
Definition lead (c : rmt_config) (first : bool) : list rmt_symbol :=
  (if first || (rc_bidibit c =? 0) then []
   else repeat (symbol c (rc_bidibit c) (rc_bidibit c)) 4) ++
  (if rc_zimo0 c then [bit_symbol c false] else []) ++
  repeat (bit_symbol c true) (Z.to_nat (rc_num_preamble c)).

(** The symbols of a packet *)
Definition stream (c : rmt_config) (first : bool) (bs : list Z) : list rmt_symbol :=
  lead c first ++ flat_map (fun b => map (bit_symbol c) (false :: msb_first b)) bs ++
  [last_symbol c].

(** Both half bits of the symbols in the order of time *)
Definition durations (ss : list rmt_symbol) : list Z :=
  flat_map (fun s => [s_dur0 s; s_dur1 s]) ss.

(** Number of symbols the hardware took after the first [n] calls *)
Definition taken (haves : list nat) (n : nat) : nat := fold_right Nat.add 0%nat (firstn n haves).

(** No call ran out of memory exactly between two bytes *)
Definition unsplit (c : rmt_config) (first : bool) (bs : list Z) (haves : list nat) : Prop :=
  forall n k, (1 <= k < length bs)%nat ->
    taken haves n <> (length (lead c first) + 9 * k)%nat.

(** The actual behaviour for all schedules: the separators (the start bits in front of
    the second and all following bytes) are marked, and a separator which a call would
    have to begin with is lost. *)
Definition marked (c : rmt_config) (first : bool) (bs : list Z) : list (bool * rmt_symbol) :=
  map (pair false) (lead c first) ++
  match bs with
  | [] => []
  | b :: bs' =>
      map (fun x => (false, bit_symbol c x)) (false :: msb_first b) ++
      flat_map (fun b => (true, bit_symbol c false) ::
                         map (fun x => (false, bit_symbol c x)) (msb_first b)) bs'
  end ++ [(false, last_symbol c)].

Definition lose (l : list (bool * rmt_symbol)) : list (bool * rmt_symbol) :=
  match l with (true, _) :: r => r | _ => l end.

(** Symbols written in the successive calls, and whether the packet is complete *)
Fixpoint handed (l : list (bool * rmt_symbol)) (haves : list nat)
  : list rmt_symbol * bool :=
  match haves with
  | [] => ([], false)
  | h :: hs =>
      if (length l <=? h)%nat then (map snd l, true)
      else let '(ss, d) := handed (lose (skipn h l)) hs in
           (map snd (firstn h l) ++ ss, d)
  end.

(** The encoder between two packets: freshly created or reset, or behind a packet *)
Definition between (first : bool) (m : rmt) : Prop :=
  m = if first then Mk_rmt RZimo0 0 0 else Mk_rmt RBiDi 0 0.

(** Levels and durations a symbol may have *)
Definition proper (c : rmt_config) (s : rmt_symbol) : Prop :=
  s_lev0 s = rc_level0 c /\ s_lev1 s = negb (rc_level0 c) /\
  ((s_dur0 s = rc_bit1 c /\ s_dur1 s = rc_bit1 c) \/
   (s_dur0 s = rc_bit0 c /\ s_dur1 s = rc_bit0 c) \/
   (s_dur0 s = rc_bidibit c /\ s_dur1 s = rc_bidibit c /\ rc_bidibit c <> 0) \/
   (s_dur0 s = rc_bit1 c /\ s_dur1 s = rc_endbit c /\ rc_endbit c <> 0)).
