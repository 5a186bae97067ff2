(** C67-C69: RMT encoder. *)
From Verif Require Import Prelude SpecCodec Tx Rmt SpecRmt RmtProofs2.

(** ** C67: refills *)

(** Exact behaviour for every packet, configuration and way of handing out memory: the
    symbols of the packet without those start bits a call would have to begin with.
    Complete once everything is written, and then ready for the next packet. *)
Theorem C67_exact : forall c first bs m haves,
  within_ranges c -> bs <> [] -> between first m ->
  exists m', rmt_session c bs m haves =
      Ok (fst (handed (marked c first bs) haves), m', snd (handed (marked c first bs) haves)) /\
    (snd (handed (marked c first bs) haves) = true -> between false m').
Proof. exact session_exact. Qed.
Print Assumptions C67_exact.

(** The first packet of a new or reset encoder has no cutout in front *)
Theorem C67_fresh : forall c bs haves, within_ranges c -> bs <> [] ->
  exists m', rmt_session c bs rmt_reset haves =
      Ok (fst (handed (marked c true bs) haves), m', snd (handed (marked c true bs) haves)) /\
    (snd (handed (marked c true bs) haves) = true -> between false m').
Proof. exact (fun c bs haves Hc Hb => session_exact c true bs rmt_reset haves Hc Hb eq_refl). Qed.
Print Assumptions C67_fresh.

(** If no call runs out of memory exactly between two bytes, the symbols do not depend
    on the schedule *)
Theorem C67_unsplit : forall c first bs m haves,
  within_ranges c -> bs <> [] -> between first m -> unsplit c first bs haves ->
  let n := taken haves (length haves) in
  exists m', rmt_session c bs m haves =
      Ok (firstn n (stream c first bs), m', (length (stream c first bs) <=? n)%nat) /\
    ((length (stream c first bs) <= n)%nat -> between false m').
Proof. exact session_unsplit. Qed.
Print Assumptions C67_unsplit.

(** 64 symbols of memory refilled in halves: which numbers of symbols in front of the
    first start bit are safe; the smallest preamble always is *)
Theorem C67_halves : forall c first bs n,
  within_ranges c -> (length bs <= 18)%nat ->
  ~ In (length (lead c first) mod 9)%nat [1; 2; 6; 7]%nat ->
  unsplit c first bs (64 :: repeat 32 n)%nat.
Proof. exact unsplit_halves. Qed.
Print Assumptions C67_halves.

Theorem C67_minimal_preamble : forall c first bs n,
  within_ranges c -> (length bs <= 18)%nat -> rc_num_preamble c = 17 ->
  unsplit c first bs (64 :: repeat 32 n)%nat.
Proof. exact unsplit_minimal. Qed.
Print Assumptions C67_minimal_preamble.

(** With 19 preamble bits and the same memory a packet of 6 bytes lacks a start bit
    although COMPLETE is reported *)
Theorem C67_refuted : exists c bs ss m,
  within_ranges c /\
  rmt_session c bs rmt_reset [64; 32; 32]%nat = Ok (ss, m, true) /\
  ss <> stream c true bs /\
  ss = firstn 64 (stream c true bs) ++ skipn 65 (stream c true bs).
Proof.
  exists (Mk_rmt_config 19 0 58 100 0 true false), [0xC0; 0x00; 0x3F; 0x90; 0x01; 0x6E].
  eexists _, _. split; [unfold within_ranges; cbn; lia|].
  split; [vm_compute; reflexivity|].
  split; [|vm_compute; reflexivity].
  intro H. apply (f_equal (@length _)) in H. vm_compute in H. discriminate H.
Qed.
Print Assumptions C67_refuted.

(** Hypotheses: the second packet after a reset with cutout and ZIMO 0, four refills in
    the middle of bits of the preamble, the cutout, a byte and directly behind a start bit *)
Example C67_ex :
  let c := Mk_rmt_config 17 60 58 100 58 true true in
  within_ranges c /\ between false (Mk_rmt RBiDi 0 0) /\
  length (lead c false) = 22%nat /\
  unsplit c false [3; 0x3F; 0x90; 0xAC] [2; 10; 11; 0; 5; 100]%nat /\
  length (stream c false [3; 0x3F; 0x90; 0xAC]) = 59%nat /\
  (exists m, rmt_session c [3; 0x3F; 0x90; 0xAC] (Mk_rmt RBiDi 0 0) [2; 10; 11; 0; 5; 100]%nat
     = Ok (stream c false [3; 0x3F; 0x90; 0xAC], m, true)).
Proof.
  cbv zeta. split; [unfold within_ranges; cbn; lia|]. split; [reflexivity|].
  split; [reflexivity|]. split.
  - intros n k K. change (length [3; 0x3F; 0x90; 0xAC]) with 4%nat in K.
    change (length (lead _ _)) with 22%nat.
    do 7 (destruct n as [|n]; [cbn; lia|]). cbn. lia.
  - split; [reflexivity|]. eexists. vm_compute. reflexivity.
Qed.

(** ** C68: agreement with the transmitter *)
Theorem C68_agree : forall c cfg first bs m haves,
  within_ranges c -> bs <> [] -> (length bs <= 18)%nat ->
  between first m -> unsplit c first bs haves ->
  (length (stream c first bs) <= taken haves (length haves))%nat ->
  (first = true \/ rc_bidibit c = 0) -> rc_zimo0 c = false ->
  (rc_endbit c = 0 \/ rc_endbit c = rc_bit1 c) ->
  num_preamble cfg = rc_num_preamble c -> bit1_duration cfg = rc_bit1 c ->
  bit0_duration cfg = rc_bit0 c ->
  exists ss m', rmt_session c bs m haves = Ok (ss, m', true) /\
    bytes2timings bs cfg = Ok (durations ss).
Proof. exact agree. Qed.
Print Assumptions C68_agree.

(** Hypotheses: enough memory at once *)
Example C68_ex :
  let c := Mk_rmt_config 17 0 58 100 0 true false in
  let cfg := TxConfig 17 58 100 true false in
  within_ranges c /\ between false (Mk_rmt RBiDi 0 0) /\
  unsplit c false [3; 0x3F; 0x90; 0xAC] [200]%nat /\
  length (stream c false [3; 0x3F; 0x90; 0xAC]) = 54%nat /\
  (exists ss, rmt_session c [3; 0x3F; 0x90; 0xAC] (Mk_rmt RBiDi 0 0) [200]%nat
      = Ok (ss, Mk_rmt RBiDi 0 0, true) /\ length ss = 54%nat /\
     bytes2timings [3; 0x3F; 0x90; 0xAC] cfg = Ok (durations ss)).
Proof.
  cbv zeta. split; [unfold within_ranges; cbn; lia|]. split; [reflexivity|]. split.
  - intros n k K. change (length [3; 0x3F; 0x90; 0xAC]) with 4%nat in K.
    change (length (lead _ _)) with 17%nat.
    destruct n as [|[|n]]; cbn; lia.
  - split; [reflexivity|]. eexists. split; [vm_compute; reflexivity|].
    split; vm_compute; reflexivity.
Qed.

(** ** C69: configuration *)
Theorem C69_check : forall c, rmt_config_ok c = true <-> within_ranges c.
Proof. exact config_check. Qed.
Print Assumptions C69_check.

(** Every symbol ever written, for every packet and every schedule *)
Theorem C69_symbols : forall c first bs m haves ss m' d,
  within_ranges c -> bs <> [] -> between first m ->
  rmt_session c bs m haves = Ok (ss, m', d) -> Forall (proper c) ss.
Proof. exact session_proper. Qed.
Print Assumptions C69_symbols.

Example C69_ex : within_ranges (Mk_rmt_config 30 61 60 114 60 false true) /\
  ~ within_ranges (Mk_rmt_config 30 61 60 114 61 false true) /\
  ~ within_ranges (Mk_rmt_config 30 56 60 114 60 false true) /\
  (exists ss m, rmt_session (Mk_rmt_config 30 61 60 114 60 false true) [0xFF; 0; 0xFF]
     (Mk_rmt RBiDi 0 0) [64]%nat = Ok (ss, m, true) /\ length ss = 63%nat /\
     hd (Sym 0 false 0 false) ss = Sym 61 false 61 true /\
     last ss (Sym 0 false 0 false) = Sym 60 false 60 true).
Proof.
  split; [unfold within_ranges; cbn; lia|]. split; [unfold within_ranges; cbn; lia|].
  split; [unfold within_ranges; cbn; lia|]. eexists _, _. split; [vm_compute; reflexivity|].
  split; [reflexivity|]. split; reflexivity.
Qed.
