(** Proofs about the RMT encoder, claims. *)
From Verif Require Import Prelude SpecCodec Tx Rmt SpecRmt SpecTx CodecProofs2 RmtProofs.
Local Open Scope nat_scope.

Lemma ranges_preamble : forall c, within_ranges c -> 1 <= Z.to_nat (rc_num_preamble c).
Proof. unfold within_ranges. lia. Qed.

Lemma session_exact : forall c first bs m haves, within_ranges c -> bs <> [] -> between first m ->
  exists m', rmt_session c bs m haves =
      Ok (fst (handed (marked c first bs) haves), m', snd (handed (marked c first bs) haves)) /\
    (snd (handed (marked c first bs) haves) = true -> between false m').
Proof.
  intros c first bs m haves R B M.
  assert (1 <= length bs) by (destruct bs; [congruence|cbn; lia]).
  eapply session_does; auto using ranges_preamble.
  apply between_at; auto using ranges_preamble.
Qed.

Lemma marked_plain : forall c first bs, map snd (marked c first bs) = stream c first bs.
Proof.
  intros. unfold marked, stream. rewrite !map_app, map_map. cbn [snd]. rewrite map_id. f_equal. f_equal.
  destruct bs as [|b bs]; [reflexivity|]. rewrite map_app. cbn [flat_map]. f_equal.
  induction bs as [|b' bs IH]; [reflexivity|]. cbn [flat_map]. rewrite map_app, IH. reflexivity.
Qed.

Lemma taken_S : forall h hs n, taken (h :: hs) (S n) = h + taken hs n.
Proof. reflexivity. Qed.

Lemma nth_error_skip : forall {A} (l : list A) h n, nth_error (skipn h l) n = nth_error l (h + n).
Proof. intros A l h n. revert l. induction h; intros [|x l]; cbn; auto. now destruct n. Qed.

Lemma firstn_plus : forall {A} (l : list A) i j, firstn (i + j) l = firstn i l ++ firstn j (skipn i l).
Proof. intros A l i j. revert l. induction i; intros [|x l]; cbn; auto; [now rewrite firstn_nil|]. now rewrite IHi. Qed.

Lemma handed_whole : forall haves l, l <> [] ->
  (forall n s, nth_error l (taken haves n) <> Some (true, s) \/ n = 0) ->
  handed l haves = (firstn (taken haves (length haves)) (map snd l),
                    length l <=? taken haves (length haves)).
Proof.
  induction haves as [|h hs IH]; intros l L F; cbn [handed length].
  - cbn. destruct l; [congruence|]. reflexivity.
  - rewrite taken_S. destruct (Nat.leb_spec (length l) h) as [E|E].
    + rewrite firstn_all2 by (rewrite map_length; lia).
      destruct (Nat.leb_spec (length l) (h + taken hs (length hs))); [reflexivity|lia].
    + assert (LO : lose (skipn h l) = skipn h l).
      { destruct (skipn h l) as [|[[] s] r] eqn:Es; try reflexivity. exfalso.
        destruct (F 1 s) as [F1|F1]; [|lia]. apply F1. rewrite taken_S.
        rewrite <- (nth_error_skip l h), Es. reflexivity. }
      rewrite LO, IH.
      * rewrite skipn_length, <- skipn_map.
        f_equal; [|destruct (Nat.leb_spec (length l - h) (taken hs (length hs))),
                     (Nat.leb_spec (length l) (h + taken hs (length hs))); lia || reflexivity].
        now rewrite firstn_plus, firstn_map.
      * intro Z. apply (f_equal (@length _)) in Z. rewrite skipn_length in Z. cbn in Z. lia.
      * intros n s. left. rewrite nth_error_skip, <- taken_S.
        destruct (F (S n) s) as [H|H]; [exact H|lia].
Qed.

Lemma nth_error_plain : forall {A} (f : A -> rmt_symbol) (l : list A) q s,
  nth_error (map (fun x => (false, f x)) l) q <> Some (true, s).
Proof.
  intros A f l. induction l as [|x l IH]; intros [|q] s; cbn; try congruence. apply IH.
Qed.

Lemma marks_between : forall c bs q s,
  nth_error (flat_map (fun b => (true, bit_symbol c false) ::
     map (fun x => (false, bit_symbol c x)) (msb_first b)) bs ++ [(false, last_symbol c)]) q
  = Some (true, s) -> exists k, k < length bs /\ q = 9 * k.
Proof.
  intros c bs. induction bs as [|b bs IH]; intros q s H.
  - destruct q as [|[|q]]; cbn in H; congruence.
  - cbn [flat_map] in H. rewrite <- app_assoc in H.
    destruct (Nat.lt_ge_cases q 9) as [L|L].
    + rewrite nth_error_app1 in H by (cbn; lia).
      destruct q as [|q]; [exists 0; cbn; lia|]. exfalso. eapply nth_error_plain, H.
    + rewrite nth_error_app2 in H by (cbn; lia).
      change (length ((true, bit_symbol c false) :: _)) with 9 in H.
      apply IH in H. destruct H as (k & K & E). exists (S k). cbn [length]. lia.
Qed.

Lemma marks : forall c first bs q s, nth_error (marked c first bs) q = Some (true, s) ->
  exists k, 1 <= k < length bs /\ q = length (lead c first) + 9 * k.
Proof.
  intros c first bs q s H. unfold marked in H.
  destruct (Nat.lt_ge_cases q (length (lead c first))) as [L|L].
  { rewrite nth_error_app1 in H by (rewrite map_length; lia). exfalso.
    eapply (nth_error_plain (fun x => x)), H. }
  rewrite nth_error_app2, map_length in H by (rewrite map_length; lia).
  destruct bs as [|b bs].
  { destruct (q - _) as [|[|]]; cbn in H; congruence. }
  rewrite <- app_assoc in H.
  destruct (Nat.lt_ge_cases (q - length (lead c first)) 9) as [L9|L9].
  { rewrite nth_error_app1 in H by (cbn [length map msb_first]; lia). exfalso. eapply nth_error_plain, H. }
  rewrite nth_error_app2 in H by (cbn [length map msb_first]; lia).
  change (length (map _ (false :: msb_first b))) with 9 in H.
  apply marks_between in H. destruct H as (k & K & E). exists (S k). cbn [length]. lia.
Qed.

Lemma marked_nonempty : forall c first bs, marked c first bs <> [].
Proof.
  intros c first bs E. apply (f_equal (@length _)) in E. unfold marked in E.
  rewrite !app_length in E. cbn in E. lia.
Qed.

Lemma session_unsplit : forall c first bs m haves, within_ranges c -> bs <> [] -> between first m ->
  unsplit c first bs haves ->
  let n := taken haves (length haves) in
  exists m', rmt_session c bs m haves =
      Ok (firstn n (stream c first bs), m', length (stream c first bs) <=? n) /\
    (length (stream c first bs) <= n -> between false m').
Proof.
  intros c first bs m haves R B M U n.
  destruct (session_exact c first bs m haves R B M) as (m' & E & F).
  assert (W : forall k s, nth_error (marked c first bs) (taken haves k) <> Some (true, s) \/ k = 0).
  { intros k s. left. intro H. apply marks in H. destruct H as (j & J & H). exact (U k j J H). }
  rewrite (handed_whole haves _ (marked_nonempty c first bs) W) in E, F. cbn [fst snd] in E, F.
  rewrite <- marked_plain, map_length. exists m'. split; [exact E|].
  intro L. apply F. now apply Nat.leb_le.
Qed.

Lemma stream_length : forall c first bs,
  length (stream c first bs) = length (lead c first) + 9 * length bs + 1.
Proof.
  intros. unfold stream. rewrite !app_length. cbn [length].
  enough (length (flat_map (fun b => map (bit_symbol c) (false :: msb_first b)) bs) = 9 * length bs) by lia.
  induction bs as [|b bs IH]; [reflexivity|]. cbn [flat_map]. rewrite app_length, IH.
  cbn [length map msb_first]. lia.
Qed.

Lemma taken_halves : forall n k, k = 0 \/ exists j, 2 <= j /\ taken (64 :: repeat 32 n) k = 32 * j.
Proof.
  intros n [|k]; [now left|]. right. rewrite taken_S.
  enough (exists j, taken (repeat 32 n) k = 32 * j) as (j & ->) by (exists (2 + j); lia).
  revert k. induction n as [|n IH]; intros k.
  - exists 0. unfold taken. now rewrite firstn_nil.
  - destruct k as [|k]; [exists 0; reflexivity|]. cbn [repeat]. rewrite taken_S.
    destruct (IH k) as (j & ->). exists (S j). lia.
Qed.

Lemma lead_length : forall c first, within_ranges c ->
  length (lead c first) = (if first || (rc_bidibit c =? 0)%Z then 0 else 4) +
    (if rc_zimo0 c then 1 else 0) + Z.to_nat (rc_num_preamble c).
Proof.
  intros. unfold lead. rewrite !app_length, repeat_length.
  destruct (first || _), (rc_zimo0 c); cbn; lia.
Qed.

Lemma unsplit_halves : forall c first bs n, within_ranges c -> length bs <= 18 ->
  ~ In (length (lead c first) mod 9) [1; 2; 6; 7] -> unsplit c first bs (64 :: repeat 32 n).
Proof.
  intros c first bs n R L NI m k K E. rewrite lead_length in * by exact R.
  set (l := (if first || _ then 0 else 4) + _ + _) in *.
  assert (17 <= l <= 35).
  { unfold within_ranges in R. subst l. destruct (first || _), (rc_zimo0 c); lia. }
  destruct (taken_halves n m) as [->|(j & J & T)]; [cbn in E; lia|].
  rewrite T in E. apply NI.
  assert (j <= 5) by lia.
  assert (l mod 9 = (32 * j) mod 9) as ->.
  { rewrite E. rewrite Nat.mul_comm, Nat.mod_add; lia. }
  destruct j as [|[|[|[|[|[|j]]]]]]; cbn; try lia; auto 6.
Qed.

Lemma unsplit_minimal : forall c first bs n, within_ranges c -> length bs <= 18 ->
  rc_num_preamble c = 17%Z -> unsplit c first bs (64 :: repeat 32 n).
Proof.
  intros c first bs n R L P. apply unsplit_halves; auto. rewrite lead_length by exact R.
  rewrite P. change (Z.to_nat 17) with 17.
  destruct (first || _), (rc_zimo0 c); cbn; lia.
Qed.

Lemma half_bits_app : forall d1 d0 a b, half_bits d1 d0 (a ++ b) = half_bits d1 d0 a ++ half_bits d1 d0 b.
Proof. intros. unfold half_bits. apply flat_map_app. Qed.

Lemma durations_app : forall a b, durations (a ++ b) = durations a ++ durations b.
Proof. intros. unfold durations. apply flat_map_app. Qed.

Lemma durations_bits : forall c xs,
  durations (map (bit_symbol c) xs) = half_bits (rc_bit1 c) (rc_bit0 c) xs.
Proof. induction xs as [|x xs IH]; [reflexivity|]. 
  change (durations (map (bit_symbol c) (x :: xs))) with
    ([s_dur0 (bit_symbol c x); s_dur1 (bit_symbol c x)] ++ durations (map (bit_symbol c) xs)).
  rewrite IH. reflexivity. Qed.

Lemma stream_bits : forall c bs first, (first = true \/ rc_bidibit c = 0%Z) ->
  rc_zimo0 c = false -> (rc_endbit c = 0%Z \/ rc_endbit c = rc_bit1 c) ->
  stream c first bs = map (bit_symbol c) (track_bits (Z.to_nat (rc_num_preamble c)) bs).
Proof.
  intros c bs first F Z E. unfold stream, lead, track_bits. rewrite Z.
  assert (first || (rc_bidibit c =? 0)%Z = true) as ->
    by (destruct F as [->| ->]; [reflexivity|apply orb_true_r]).
  cbn [List.app]. rewrite !map_app, map_repeat. f_equal. f_equal.
  - induction bs as [|b bs IH]; [reflexivity|]. cbn [flat_map]. rewrite map_app, IH. reflexivity.
  - unfold last_symbol, bit_symbol. cbn [map].
    destruct E as [E|E]; rewrite E; [reflexivity|].
    now destruct (rc_bit1 c =? 0)%Z.
Qed.

Lemma agree : forall c cfg first bs m haves, within_ranges c -> bs <> [] -> length bs <= 18 ->
  between first m -> unsplit c first bs haves ->
  length (stream c first bs) <= taken haves (length haves) ->
  (first = true \/ rc_bidibit c = 0%Z) -> rc_zimo0 c = false ->
  (rc_endbit c = 0%Z \/ rc_endbit c = rc_bit1 c) ->
  num_preamble cfg = rc_num_preamble c -> bit1_duration cfg = rc_bit1 c ->
  bit0_duration cfg = rc_bit0 c ->
  exists ss m', rmt_session c bs m haves = Ok (ss, m', true) /\
    bytes2timings bs cfg = Ok (durations ss).
Proof.
  intros c cfg first bs m haves R B L M U T F Z E P D1 D0.
  destruct (session_unsplit c first bs m haves R B M U) as (m' & S & _).
  rewrite firstn_all2, (proj2 (Nat.leb_le _ _) T) in S by exact T.
  eexists _, _. split; [exact S|].
  rewrite bytes2timings_spec, stream_bits, durations_bits, P, D1, D0 by
    (auto; unfold within_ranges in R; lia). reflexivity.
Qed.

Lemma config_check : forall c, rmt_config_ok c = true <-> within_ranges c.
Proof.
  intros c. unfold rmt_config_ok, within_ranges, tx_min_preamble, tx_max_preamble, bidi_bit_min,
    bidi_bit_max, tx_bit1_min, tx_bit1_max, tx_bit0_min, tx_bit0_max.
  rewrite !andb_true_iff, orb_true_iff, andb_true_iff, !Z.leb_le, Z.eqb_eq. lia.
Qed.

Lemma bit_proper : forall c x, proper c (bit_symbol c x).
Proof. intros c []; unfold proper; cbn; auto 6. Qed.

Lemma stream_proper : forall c first bs, Forall (proper c) (stream c first bs).
Proof.
  intros c first bs. unfold stream, lead. rewrite !Forall_app. repeat split.
  - destruct (Z.eqb_spec (rc_bidibit c) 0); [rewrite orb_true_r; constructor|].
    destruct first; cbn [orb]; [constructor|].
    apply Forall_forall. intros s H. apply repeat_spec in H. subst s. unfold proper. cbn. auto 8.
  - destruct (rc_zimo0 c); constructor; auto using bit_proper.
  - apply Forall_forall. intros s H. apply repeat_spec in H. subst s. apply bit_proper.
  - apply Forall_forall. intros s H. apply in_flat_map in H. destruct H as (b & _ & H).
    apply in_map_iff in H. destruct H as (x & <- & _). apply bit_proper.
  - constructor; [|constructor]. unfold last_symbol, proper. cbn.
    destruct (Z.eqb_spec (rc_endbit c) 0); auto 8.
Qed.

Lemma handed_from : forall haves l s, In s (fst (handed l haves)) -> In s (map snd l).
Proof.
  induction haves as [|h hs IH]; intros l s; cbn [handed]; [intros []|].
  destruct (length l <=? h); [auto|].
  specialize (IH (lose (skipn h l)) s).
  destruct (handed (lose (skipn h l)) hs) as [ss d]. cbn [fst] in *.
  intro H. apply in_app_or in H. rewrite <- (firstn_skipn h l), map_app. apply in_or_app.
  destruct H as [H|H]; [auto|]. right. apply IH in H.
  destruct (skipn h l) as [|[[] x] r]; auto. right. exact H.
Qed.

Lemma session_proper : forall c first bs m haves ss m' d, within_ranges c -> bs <> [] ->
  between first m -> rmt_session c bs m haves = Ok (ss, m', d) -> Forall (proper c) ss.
Proof.
  intros c first bs m haves ss m' d R B M E.
  destruct (session_exact c first bs m haves R B M) as (m2 & E2 & _).
  rewrite E2 in E. injection E as <- _ _. apply Forall_forall. intros s H.
  apply handed_from in H. rewrite marked_plain in H.
  exact (proj1 (Forall_forall _ _) (stream_proper c first bs) s H).
Qed.
