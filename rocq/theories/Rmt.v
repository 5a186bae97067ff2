(** ESP32 RMT encoder (src/rmt_dcc_encoder.c, src/rmt_dcc_encoder.h). *)
From Verif Require Import Prelude Tx.

(** dcc_encoder_config_t, rmt_dcc_encoder.h:20-61 *)
Record rmt_config := Mk_rmt_config {
  rc_num_preamble : Z;
  rc_bidibit : Z;
  rc_bit1 : Z;
  rc_bit0 : Z;
  rc_endbit : Z;
  rc_level0 : bool;
  rc_zimo0 : bool }.

(** DCC_TX_MIN/MAX_BIDI_BIT_TIMING, CMakeLists.txt:73-78 *)
Definition bidi_bit_min : Z := 57.
Definition bidi_bit_max : Z := 61.

(** Argument check of rmt_new_dcc_encoder, rmt_dcc_encoder.c:377-392. Pointers are
    assumed to be valid. *)
Definition rmt_config_ok (c : rmt_config) : bool :=
  (tx_min_preamble <=? rc_num_preamble c) && (rc_num_preamble c <=? tx_max_preamble)
  && ((rc_bidibit c =? 0)
      || ((bidi_bit_min <=? rc_bidibit c) && (rc_bidibit c <=? bidi_bit_max)))
  && (tx_bit1_min <=? rc_bit1 c) && (rc_bit1 c <=? tx_bit1_max)
  && (tx_bit0_min <=? rc_bit0 c) && (rc_bit0 c <=? tx_bit0_max)
  && (rc_endbit c <=? tx_bit1_max).

(** rmt_symbol_word_t, quoted in rmt_dcc_encoder.h:45-54 *)
Record rmt_symbol := Sym { s_dur0 : Z; s_lev0 : bool; s_dur1 : Z; s_lev1 : bool }.

(** Symbol set-up, rmt_dcc_encoder.c:413-438. A skipped bidi_symbol (zero
    initialized by calloc, line 394) is recognized by its duration (line 83). *)
Definition sym_bidi (c : rmt_config) : rmt_symbol :=
  Sym (rc_bidibit c) (rc_level0 c) (rc_bidibit c) (negb (rc_level0 c)).
Definition sym_one (c : rmt_config) : rmt_symbol :=
  Sym (rc_bit1 c) (rc_level0 c) (rc_bit1 c) (negb (rc_level0 c)).
Definition sym_zero (c : rmt_config) : rmt_symbol :=
  Sym (rc_bit0 c) (rc_level0 c) (rc_bit0 c) (negb (rc_level0 c)).
Definition sym_end (c : rmt_config) : rmt_symbol :=
  Sym (rc_bit1 c) (rc_level0 c)
      (if rc_endbit c =? 0 then rc_bit1 c else rc_endbit c) (negb (rc_level0 c)).

(** enum state, rmt_dcc_encoder.c:43 *)
Inductive rmt_phase := RBiDi | RZimo0 | RPreamble | RStart | RData | REnd.

(** Mutable fields, rmt_dcc_encoder.c:42-43. [m_bit] is the position the bytes
    encoder (ESP-IDF) keeps after a truncated call. The copy encoder only ever
    gets one symbol, its position is always 0. *)
Record rmt := Mk_rmt { m_state : rmt_phase; m_num : nat; m_bit : nat }.

(** rmt_new_dcc_encoder (calloc and line 441), rmt_dcc_encoder_reset (352-360) *)
Definition rmt_reset : rmt := Mk_rmt RZimo0 0 0.

(** Result of an encode step: symbols written, free symbols left, encoder state,
    RMT_ENCODING_COMPLETE and RMT_ENCODING_MEM_FULL bits of the returned state *)
Record rmt_out := Mk_out {
  o_syms : list rmt_symbol; o_have : nat; o_rmt : rmt; o_complete : bool; o_full : bool }.

(** ESP-IDF contract of copy_encoder->encode for one symbol (rmt_dcc_encoder.c:63,
    90,151): symbols written, free symbols left, COMPLETE, MEM_FULL *)
Definition copy_encode (s : rmt_symbol) (have : nat) : list rmt_symbol * nat * bool * bool :=
  match have with
  | O => ([], O, false, true)
  | S h => ([s], h, true, (h =? 0)%nat)
  end.

(** Bits of a byte, most significant first (msb_first, rmt_dcc_encoder.c:449) *)
Definition msb_bits (b : Z) : list bool :=
  map (fun i => Z.testbit b i) [7; 6; 5; 4; 3; 2; 1; 0].

(** ESP-IDF contract of bytes_encoder->encode for one byte (rmt_dcc_encoder.c:207):
    resumes at bit [pos]; additionally returns the new position *)
Definition bytes_encode (c : rmt_config) (b : Z) (pos have : nat)
  : list rmt_symbol * nat * nat * bool * bool :=
  let want := (8 - pos)%nat in
  let n := Nat.min want have in
  let syms := map (fun x : bool => if x then sym_one c else sym_zero c)
                  (firstn n (skipn pos (msb_bits b))) in
  let complete := (want <=? have)%nat in
  (syms, (have - n)%nat, if complete then O else (pos + n)%nat, complete,
   (have <=? want)%nat).

(** The loops of rmt_encode_dcc_bidi and rmt_encode_dcc_preamble,
    rmt_dcc_encoder.c:89-103, 150-164: returns symbols, free symbols, num_symbols,
    whether the limit was reached, MEM_FULL. Recursion on the free symbols: an
    iteration without free symbols sets MEM_FULL and breaks. *)
Fixpoint rep_loop (s : rmt_symbol) (limit have num : nat)
  : list rmt_symbol * nat * nat * bool * bool :=
  match have with
  | O => ([], O, num, false, true)
  | S h =>
      if (limit <=? S num)%nat then ([s], h, O, true, (h =? 0)%nat)
      else if (h =? 0)%nat then ([s], h, S num, false, true)
      else let '(ss, h', n', done, full) := rep_loop s limit h (S num) in
           (s :: ss, h', n', done, full)
  end.

(** rmt_encode_dcc_bidi, rmt_dcc_encoder.c:75-107 *)
Definition enc_bidi (c : rmt_config) (m : rmt) (have : nat) : rmt_out :=
  if rc_bidibit c =? 0 then Mk_out [] have (Mk_rmt RZimo0 (m_num m) (m_bit m)) true false
  else
    let '(ss, h, n, done, full) := rep_loop (sym_bidi c) 4 have (m_num m) in
    Mk_out ss h (Mk_rmt (if done then RZimo0 else RBiDi) n (m_bit m)) done full.

(** rmt_encode_dcc_zimo0, rmt_dcc_encoder.c:115-135 *)
Definition enc_zimo0 (c : rmt_config) (m : rmt) (have : nat) : rmt_out :=
  if negb (rc_zimo0 c) then Mk_out [] have (Mk_rmt RPreamble (m_num m) (m_bit m)) true false
  else
    let '(ss, h, complete, full) := copy_encode (sym_zero c) have in
    Mk_out ss h (Mk_rmt (if complete then RPreamble else m_state m) (m_num m) (m_bit m))
           complete full.

(** rmt_encode_dcc_preamble, rmt_dcc_encoder.c:143-168 *)
Definition enc_preamble (c : rmt_config) (m : rmt) (have : nat) : rmt_out :=
  let '(ss, h, n, done, full) :=
    rep_loop (sym_one c) (Z.to_nat (rc_num_preamble c)) have (m_num m) in
  Mk_out ss h (Mk_rmt (if done then RStart else RPreamble) n (m_bit m)) done full.

(** rmt_encode_dcc_start, rmt_dcc_encoder.c:176-186 *)
Definition enc_start (c : rmt_config) (m : rmt) (have : nat) : rmt_out :=
  let '(ss, h, complete, full) := copy_encode (sym_zero c) have in
  Mk_out ss h (Mk_rmt (if complete then RData else m_state m) (m_num m) (m_bit m))
         complete full.

(** rmt_encode_dcc_data, rmt_dcc_encoder.c:196-222 *)
Definition enc_data (c : rmt_config) (data : list Z) (m : rmt) (have : nat) : res rmt_out :=
  match nth_error data (m_num m / 8) with
  | None => UB OutOfBounds
  | Some b =>
      let '(ss, h, pos, complete, full) := bytes_encode c b (m_bit m) have in
      let n := (m_num m + length ss)%nat in
      let m' := if complete && (length data * 8 <=? n)%nat
                then Mk_rmt REnd 0 pos else Mk_rmt (m_state m) n pos in
      Ok (Mk_out ss h m' complete full)
  end.

(** rmt_encode_dcc_end, rmt_dcc_encoder.c:230-243 *)
Definition enc_end (c : rmt_config) (m : rmt) (have : nat) : rmt_out :=
  let '(ss, h, complete, full) := copy_encode (sym_end c) have in
  Mk_out ss h (if complete then Mk_rmt RBiDi 0 (m_bit m) else m) complete full.

(** Fall through to the next case of the switch in rmt_encode_dcc unless MEM_FULL
    was returned, rmt_dcc_encoder.c:268-272, 277-281, 286-290, 296-300, 305-308 *)
Definition chain (o : rmt_out) (k : rmt -> nat -> res rmt_out) : res rmt_out :=
  if o_full o then Ok (Mk_out (o_syms o) (o_have o) (o_rmt o) false true)
  else rbind (k (o_rmt o) (o_have o)) (fun o2 =>
       Ok (Mk_out (o_syms o ++ o_syms o2) (o_have o2) (o_rmt o2) (o_complete o2) (o_full o2))).

(** Cases Start, Data and End with the goto, rmt_dcc_encoder.c:292-320. The state
    compared in line 309 is below End exactly if it is not End. Each round trip
    through the label consumes at least one free symbol, so [S have] units of fuel
    suffice (Lemma [from_data_fuel] in RmtProofs.v). *)
Fixpoint from_data (fuel : nat) (c : rmt_config) (data : list Z) (m : rmt) (have : nat)
  : res rmt_out :=
  match fuel with
  | O => UB OutOfBounds
  | S f =>
      rbind (enc_data c data m have) (fun o =>
      chain o (fun m have =>
        match m_state m with
        | REnd => Ok (enc_end c m have)
        | _ => chain (enc_start c m have) (from_data f c data)
        end))
  end.

Definition from_start (c : rmt_config) (data : list Z) (m : rmt) (have : nat) : res rmt_out :=
  chain (enc_start c m have) (fun m have => from_data (S have) c data m have).

(** rmt_encode_dcc, rmt_dcc_encoder.c:253-325 *)
Definition rmt_encode (c : rmt_config) (data : list Z) (m : rmt) (have : nat) : res rmt_out :=
  let preamble m have := chain (enc_preamble c m have) (from_start c data) in
  let zimo0 m have := chain (enc_zimo0 c m have) preamble in
  match m_state m with
  | RBiDi => chain (enc_bidi c m have) zimo0
  | RZimo0 => zimo0 m have
  | RPreamble => preamble m have
  | RStart => from_start c data m have
  | RData => from_data (S have) c data m have
  | REnd => Ok (enc_end c m have)
  end.

(** The driver's use of an encoder: it calls encode with the currently free memory
    ([haves], one entry per call) until COMPLETE is returned. Result: symbols, state,
    whether COMPLETE was returned. Not part of /repo (ESP-IDF, driver/rmt). *)
Fixpoint rmt_session (c : rmt_config) (data : list Z) (m : rmt) (haves : list nat)
  : res (list rmt_symbol * rmt * bool) :=
  match haves with
  | [] => Ok ([], m, false)
  | h :: hs =>
      rbind (rmt_encode c data m h) (fun o =>
      if o_complete o then Ok (o_syms o, o_rmt o, true)
      else rbind (rmt_session c data (o_rmt o) hs) (fun '(ss, m', d) =>
           Ok (o_syms o ++ ss, m', d)))
  end.
