(** Proofs about the RMT encoder. *)
From Verif Require Import Prelude SpecCodec Tx Rmt SpecRmt.
Local Open Scope nat_scope.

Section Encoder.
Variables (c : rmt_config) (data : list Z).
Hypothesis Npos : 1 <= Z.to_nat (rc_num_preamble c).
Hypothesis Dpos : 1 <= length data.

Let N := Z.to_nat (rc_num_preamble c).
Notation item := (bool * rmt_symbol)%type.
Let plain (x : bool) : item := (false, bit_symbol c x).
Let off : item := (false, symbol c (rc_bidibit c) (rc_bidibit c)).
Let last : item := (false, last_symbol c).

Lemma bits_agree : forall b, msb_bits b = msb_first b.
Proof.
  intros. unfold msb_bits, msb_first. apply map_ext_in. intros i Hi.
  assert (0 <= i)%Z by (cbn in Hi; intuition lia).
  rewrite Z.testbit_odd, Z.shiftr_div_pow2, Zmod_odd by lia.
  now destruct (Z.odd _).
Qed.

Definition frames_from (k : nat) : list item :=
  flat_map (fun b => (true, bit_symbol c false) :: map plain (msb_first b)) (skipn k data)
  ++ [last].
Definition data_rem (k pos : nat) : list item :=
  map plain (skipn pos (msb_first (nth k data 0%Z))) ++ frames_from (S k).
Definition start_rem : list item := [plain false] ++ data_rem 0 0.
Definition pre_rem (n : nat) : list item := repeat (plain true) (N - n) ++ start_rem.
Definition zimo_seg : list item := if rc_zimo0 c then [plain false] else [].
Definition zimo_rem : list item := zimo_seg ++ pre_rem 0.
Definition bidi_seg (n : nat) : list item :=
  if (rc_bidibit c =? 0)%Z then [] else repeat off (4 - n).
Definition bidi_rem (n : nat) : list item := bidi_seg n ++ zimo_rem.

Inductive at_ : rmt -> list item -> Prop :=
| at_bidi : forall n, n < 4 -> (rc_bidibit c = 0%Z -> n = 0) -> at_ (Mk_rmt RBiDi n 0) (bidi_rem n)
| at_zimo : at_ (Mk_rmt RZimo0 0 0) zimo_rem
| at_pre : forall n, n < N -> at_ (Mk_rmt RPreamble n 0) (pre_rem n)
| at_start : at_ (Mk_rmt RStart 0 0) start_rem
| at_data : forall k pos, k < length data -> pos < 8 ->
    at_ (Mk_rmt RData (8 * k + pos) pos) (data_rem k pos)
| at_end : at_ (Mk_rmt REnd 0 0) [last].

Definition does (o : rmt_out) (rem : list item) (have : nat) : Prop :=
  o_syms o = map snd (firstn have rem) /\
  o_complete o = (length rem <=? have) /\
  if length rem <=? have then o_rmt o = Mk_rmt RBiDi 0 0
  else at_ (o_rmt o) (lose (skipn have rem)).

Definition stage (o : rmt_out) (seg rem1 : list item) (m1 : rmt) (have : nat) : Prop :=
  (o_full o = false /\ o_syms o = map snd seg /\ o_have o + length seg = have /\ o_rmt o = m1)
  \/ (o_full o = true /\ have <= length seg /\ o_syms o = map snd (firstn have seg) /\
      at_ (o_rmt o) (lose (skipn have (seg ++ rem1)))).

Lemma chain_does : forall o seg rem1 m1 have k,
  1 <= length rem1 -> stage o seg rem1 m1 have ->
  (forall h, h + length seg = have -> o_full o = false -> exists o2, k m1 h = Ok o2 /\ does o2 rem1 h) ->
  exists o3, chain o k = Ok o3 /\ does o3 (seg ++ rem1) have.
Proof.
  intros o seg rem1 m1 have k L S K. unfold chain.
  destruct S as [(F & Sy & H & M)|(F & H & Sy & A)]; rewrite F.
  - destruct (K (o_have o) H F) as (o2 & E & D1 & D2 & D3). rewrite M, E.
    eexists. split; [reflexivity|]. unfold does. cbn [o_syms o_complete o_rmt].
    rewrite <- H, (Nat.add_comm (o_have o)), firstn_app_2, app_length, Sy, D1, map_app.
    split; [reflexivity|].
    assert ((length seg + length rem1 <=? length seg + o_have o) = (length rem1 <=? o_have o)) as ->
      by (destruct (Nat.leb_spec (length seg + length rem1) (length seg + o_have o)),
          (Nat.leb_spec (length rem1) (o_have o)); auto; lia).
    split; [exact D2|].
    rewrite skipn_app, skipn_all2, (Nat.add_comm (length seg)), Nat.add_sub by lia. exact D3.
  - eexists. split; [reflexivity|]. unfold does. cbn [o_syms o_complete o_rmt].
    rewrite app_length.
    destruct (Nat.leb_spec (length seg + length rem1) have); [lia|].
    repeat split; auto. rewrite firstn_app. replace (have - length seg) with 0 by lia.
    now rewrite firstn_O, app_nil_r.
Qed.

Lemma rep_loop_spec : forall s limit have num, num < limit ->
  rep_loop s limit have num =
  if limit - num <? have then (repeat s (limit - num), have - (limit - num), 0, true, false)
  else if limit - num =? have then (repeat s have, 0, 0, true, true)
  else (repeat s have, 0, num + have, false, true).
Proof.
  intros s limit have. induction have as [|h IH]; intros num Hn; cbn [rep_loop].
  - destruct (Nat.ltb_spec (limit - num) 0); [lia|].
    destruct (Nat.eqb_spec (limit - num) 0); [lia|]. now rewrite Nat.add_0_r.
  - destruct (Nat.leb_spec limit (S num)).
    + assert (limit - num = 1) as -> by lia.
      destruct h; cbn; [reflexivity|]. reflexivity.
    + destruct (Nat.eqb_spec h 0) as [->|Hh].
      * destruct (Nat.ltb_spec (limit - num) 1); [lia|].
        destruct (Nat.eqb_spec (limit - num) 1); [lia|]. cbn. do 3 f_equal. lia.
      * rewrite IH by lia.
        destruct (Nat.ltb_spec (limit - S num) h), (Nat.ltb_spec (limit - num) (S h)); try lia.
        { replace (limit - num) with (S (limit - S num)) by lia. reflexivity. }
        destruct (Nat.eqb_spec (limit - S num) h), (Nat.eqb_spec (limit - num) (S h)); try lia;
        cbn; [reflexivity|]. do 3 f_equal. lia.
Qed.

Lemma lose_plain : forall x l, lose (plain x :: l) = plain x :: l.
Proof. reflexivity. Qed.

Lemma map_repeat : forall {A B} (f : A -> B) x n, map f (repeat x n) = repeat (f x) n.
Proof. intros. induction n; cbn; congruence. Qed.

Lemma firstn_repeat : forall {A} (x : A) n k, n <= k -> firstn n (repeat x k) = repeat x n.
Proof. intros A x n. induction n; intros [|k] H; cbn; auto; [lia|]. rewrite IHn by lia. reflexivity. Qed.

Lemma skipn_repeat : forall {A} (x : A) n k, skipn n (repeat x k) = repeat x (k - n).
Proof. intros A x n. induction n; intros [|k]; cbn; auto. Qed.

Lemma lose_repeat : forall x n l, lose l = l -> lose (repeat (false, x) n ++ l) = repeat (false, x) n ++ l.
Proof. intros x [|n] l H; [exact H|reflexivity]. Qed.

Lemma lose_start : lose start_rem = start_rem.
Proof. reflexivity. Qed.

Lemma lose_pre : forall n, lose (pre_rem n) = pre_rem n.
Proof. intros. unfold pre_rem. now apply lose_repeat. Qed.

Lemma lose_zimo : lose zimo_rem = zimo_rem.
Proof. unfold zimo_rem, zimo_seg. destruct (rc_zimo0 c); [reflexivity|]. apply lose_pre. Qed.

Lemma stage_pre : forall n have, n < N ->
  stage (enc_preamble c (Mk_rmt RPreamble n 0) have) (repeat (plain true) (N - n)) start_rem
    (Mk_rmt RStart 0 0) have.
Proof.
  intros n have Hn. unfold enc_preamble. cbn [m_num m_bit].
  fold N. rewrite rep_loop_spec by exact Hn. unfold stage.
  rewrite repeat_length, map_repeat.
  destruct (Nat.ltb_spec (N - n) have).
  - left. cbn. repeat split; auto. lia.
  - right. destruct (Nat.eqb_spec (N - n) have) as [E|E]; cbn [o_full o_syms o_rmt o_have].
    + rewrite E. repeat split; auto.
      * now rewrite firstn_repeat, map_repeat by lia.
      * rewrite skipn_app, skipn_repeat, repeat_length, Nat.sub_diag. cbn. constructor.
    + repeat split; auto.
      * now rewrite firstn_repeat, map_repeat by lia.
      * rewrite skipn_app, skipn_repeat, repeat_length.
        replace (have - (N - n)) with 0 by lia. rewrite skipn_O.
        replace (N - n - have) with (N - (n + have)) by lia.
        change (at_ (Mk_rmt RPreamble (n + have) 0) (lose (pre_rem (n + have)))).
        rewrite lose_pre. constructor. lia.
Qed.

Lemma stage_bidi : forall n have, n < 4 -> (rc_bidibit c = 0%Z -> n = 0) ->
  stage (enc_bidi c (Mk_rmt RBiDi n 0) have) (bidi_seg n) zimo_rem (Mk_rmt RZimo0 0 0) have.
Proof.
  intros n have Hn Hz. unfold enc_bidi, bidi_seg. cbn [m_num m_bit].
  destruct (Z.eqb_spec (rc_bidibit c) 0) as [B|B].
  { left. cbn. rewrite (Hz B). repeat split; auto. }
  rewrite rep_loop_spec by exact Hn. unfold stage.
  rewrite repeat_length, map_repeat.
  destruct (Nat.ltb_spec (4 - n) have).
  - left. cbn [o_full o_syms o_rmt o_have]. repeat split; auto. lia.
  - right. destruct (Nat.eqb_spec (4 - n) have) as [E|E]; cbn [o_full o_syms o_rmt o_have].
    + rewrite E. repeat split; auto.
      * now rewrite firstn_repeat, map_repeat by lia.
      * rewrite skipn_app, skipn_repeat, repeat_length, Nat.sub_diag. cbn [repeat List.app skipn].
        rewrite lose_zimo. constructor.
    + split; [reflexivity|]. split; [lia|]. split.
      * now rewrite firstn_repeat, map_repeat by lia.
      * rewrite skipn_app, skipn_repeat, repeat_length.
        replace (have - (4 - n)) with 0 by lia. rewrite skipn_O.
        replace (4 - n - have) with (4 - (n + have)) by lia.
        unfold off. rewrite lose_repeat by apply lose_zimo.
        replace (repeat _ (4 - (n + have)) ++ zimo_rem) with (bidi_rem (n + have)).
        { constructor; [lia|]. intro; contradiction. }
        unfold bidi_rem, bidi_seg. destruct (Z.eqb_spec (rc_bidibit c) 0); [contradiction|reflexivity].
Qed.

Lemma stage_zimo : forall have,
  stage (enc_zimo0 c (Mk_rmt RZimo0 0 0) have) zimo_seg (pre_rem 0) (Mk_rmt RPreamble 0 0) have.
Proof.
  intros have. unfold enc_zimo0, zimo_seg. cbn [m_num m_bit m_state].
  destruct (rc_zimo0 c) eqn:Z0; cbn [negb].
  - destruct have as [|[|h]]; cbn [copy_encode Nat.eqb]; unfold stage; cbn [o_full o_syms o_rmt o_have].
    + right. repeat split; auto; [cbn; lia|].
      replace (lose _) with zimo_rem; [constructor|]. unfold zimo_rem, zimo_seg. now rewrite Z0.
    + right. repeat split; auto. cbn [skipn List.app]. rewrite lose_pre. constructor. exact Npos.
    + left. repeat split; auto. cbn. lia.
  - left. cbn. auto.
Qed.

Lemma stage_start : forall have,
  stage (enc_start c (Mk_rmt RStart 0 0) have) [plain false] (data_rem 0 0) (Mk_rmt RData 0 0) have.
Proof.
  intros have. unfold enc_start. cbn [m_num m_bit m_state].
  destruct have as [|[|h]]; cbn [copy_encode Nat.eqb]; unfold stage; cbn [o_full o_syms o_rmt o_have].
  - right. split; [reflexivity|]. split; [cbn; lia|]. split; [reflexivity|]. apply at_start.
  - right. repeat split; auto. cbn [skipn List.app].
    replace (lose _) with (data_rem 0 0); [apply (at_data 0 0); lia|].
    unfold data_rem. cbn [skipn]. destruct (nth 0 data 0%Z); reflexivity.
  - left. repeat split; auto. cbn. lia.
Qed.

Lemma does_end : forall have, does (enc_end c (Mk_rmt REnd 0 0) have) [last] have.
Proof.
  intros [|h]; unfold does, enc_end; cbn.
  - repeat split. apply at_end.
  - now rewrite firstn_nil.
Qed.

Lemma plain_length : forall b pos, length (map plain (skipn pos (msb_first b))) = 8 - pos.
Proof. intros. rewrite map_length, skipn_length. reflexivity. Qed.

Lemma lose_data : forall k pos, pos < 8 -> lose (data_rem k pos) = data_rem k pos.
Proof.
  intros k pos H. unfold data_rem.
  pose proof (plain_length (nth k data 0%Z) pos) as L.
  destruct (skipn pos _) as [|x l]; [cbn [map length] in L; lia|reflexivity].
Qed.

Lemma frames_last : forall k, length data <= k -> frames_from k = [last].
Proof. intros. unfold frames_from. now rewrite skipn_all2. Qed.

Lemma skipn_nth : forall {A} (l : list A) k d, k < length l ->
  skipn k l = nth k l d :: skipn (S k) l.
Proof.
  induction l as [|x l IH]; intros [|k] d H; cbn in H; try lia; [reflexivity|].
  cbn [skipn nth]. rewrite (IH k d) by lia. reflexivity.
Qed.

Lemma frames_more : forall k, k < length data ->
  frames_from k = [(true, bit_symbol c false)] ++ data_rem k 0.
Proof.
  intros k H. unfold frames_from, data_rem. rewrite (skipn_nth data k 0%Z H).
  cbn [flat_map List.app]. rewrite <- app_assoc. reflexivity.
Qed.

Lemma skipn_plus : forall {A} (l : list A) i j, skipn i (skipn j l) = skipn (j + i) l.
Proof. intros A l i j. revert l. induction j; intros [|x l]; cbn; auto using skipn_nil. Qed.

Definition behind (k : nat) : rmt :=
  if S k =? length data then Mk_rmt REnd 0 0 else Mk_rmt RData (8 * S k) 0.

Lemma stage_data : forall k pos have, k < length data -> pos < 8 ->
  exists o, enc_data c data (Mk_rmt RData (8 * k + pos) pos) have = Ok o /\
    o_full o = (have <=? 8 - pos) /\
    stage o (map plain (skipn pos (msb_first (nth k data 0%Z)))) (frames_from (S k)) (behind k) have.
Proof.
  intros k pos have Hk Hp. unfold enc_data. cbn [m_num m_bit m_state].
  assert ((8 * k + pos) / 8 = k) as -> by (symmetry; apply (Nat.div_unique _ 8 k pos); lia).
  rewrite (nth_error_nth' data 0%Z Hk). unfold bytes_encode.
  eexists. split; [reflexivity|]. cbn [o_full]. split; [reflexivity|].
  unfold stage. cbn [o_full o_syms o_have o_rmt].
  rewrite !map_length, firstn_length, !skipn_length, bits_agree.
  change (length (msb_bits (nth k data 0%Z))) with 8.
  change (length (msb_first (nth k data 0%Z))) with 8.
  assert (SY : forall l, map (fun x : bool => if x then sym_one c else sym_zero c) l = map snd (map plain l)).
  { intros. rewrite map_map. apply map_ext. now intros []. }
  rewrite !SY.
  destruct (Nat.leb_spec have (8 - pos)) as [F|F].
  - right. split; [reflexivity|]. split; [exact F|].
    replace (Nat.min (8 - pos) have) with have by lia.
    split; [now rewrite firstn_map|].
    replace (Nat.min have (8 - pos)) with have by lia.
    rewrite skipn_app, plain_length.
    replace (have - (8 - pos)) with 0 by lia. rewrite skipn_O.
    destruct (Nat.leb_spec (8 - pos) have) as [E|E].
    + assert (have = 8 - pos) by lia. subst have.
      rewrite skipn_all2 by (rewrite plain_length; lia). cbn [List.app].
      unfold behind. cbn [andb].
      destruct (Nat.leb_spec (length data * 8) (8 * k + pos + (8 - pos))).
      * rewrite frames_last by lia. apply at_end.
      * rewrite frames_more by lia. cbn [lose List.app].
        replace (8 * k + pos + (8 - pos)) with (8 * S k + 0) by lia.
        apply at_data; lia.
    + cbn [andb].
      replace (8 * k + pos + have) with (8 * k + (pos + have)) by lia.
      replace (lose _) with (data_rem k (pos + have)); [apply at_data; lia|].
      rewrite skipn_map, skipn_plus.
      fold (data_rem k (pos + have)). symmetry. apply lose_data. lia.
  - left. split; [reflexivity|].
    replace (Nat.min (8 - pos) have) with (8 - pos) by lia.
    rewrite firstn_all2 by (rewrite skipn_length; cbn; lia).
    split; [reflexivity|]. split; [lia|].
    destruct (Nat.leb_spec (8 - pos) have); [|lia]. cbn [andb].
    replace (Nat.min (8 - pos) (8 - pos)) with (8 - pos) by lia.
    unfold behind.
    destruct (Nat.leb_spec (length data * 8) (8 * k + pos + (8 - pos))),
      (Nat.eqb_spec (S k) (length data)); try lia; [reflexivity|].
    f_equal. lia.
Qed.

Lemma stage_sep : forall k have, S k < length data -> 0 < have ->
  stage (enc_start c (Mk_rmt RData (8 * S k) 0) have) [(true, bit_symbol c false)]
    (data_rem (S k) 0) (Mk_rmt RData (8 * S k) 0) have.
Proof.
  intros k have Hk Hh. unfold enc_start. cbn [m_num m_bit m_state].
  destruct have as [|[|h]]; [lia| |]; cbn [copy_encode Nat.eqb]; unfold stage;
    cbn [o_full o_syms o_rmt o_have].
  - right. repeat split; auto. cbn [skipn List.app]. rewrite lose_data by lia.
    replace (8 * S k) with (8 * S k + 0) by lia. apply at_data; lia.
  - left. repeat split; auto. cbn. lia.
Qed.

Lemma data_rem_length : forall k pos, 1 <= length (data_rem k pos).
Proof. intros. unfold data_rem, frames_from. rewrite !app_length. cbn. lia. Qed.

Lemma frames_length : forall k, 1 <= length (frames_from k).
Proof. intros. unfold frames_from. rewrite !app_length. cbn. lia. Qed.

Lemma from_data_does : forall fuel k pos have, k < length data -> pos < 8 -> have < fuel ->
  exists o, from_data fuel c data (Mk_rmt RData (8 * k + pos) pos) have = Ok o /\
    does o (data_rem k pos) have.
Proof.
  induction fuel as [|f IH]; intros k pos have Hk Hp Hf; [lia|]. cbn [from_data].
  destruct (stage_data k pos have Hk Hp) as (o & -> & Fu & St). cbn [rbind].
  unfold data_rem. eapply chain_does; [apply frames_length|exact St|].
  intros h Hh Fo. rewrite plain_length in Hh.
  rewrite Fu in Fo. apply Nat.leb_gt in Fo.
  unfold behind. destruct (Nat.eqb_spec (S k) (length data)) as [E|E]; cbn [m_state].
  - eexists. split; [reflexivity|]. rewrite frames_last by lia. apply does_end.
  - rewrite frames_more by lia. eapply chain_does; [apply data_rem_length|apply stage_sep; lia|].
    intros h2 Hh2 _. cbn in Hh2. replace (8 * S k) with (8 * S k + 0) by lia.
    apply IH; lia.
Qed.

Lemma chain_ext : forall o k k', (o_full o = false -> k (o_rmt o) (o_have o) = k' (o_rmt o) (o_have o)) ->
  chain o k = chain o k'.
Proof. intros o k k' H. unfold chain. destruct (o_full o); [reflexivity|]. now rewrite H. Qed.

(** The fuel of [from_data] is never used up *)
Lemma from_data_fuel : forall fuel k pos have, k < length data -> pos < 8 -> have < fuel ->
  from_data fuel c data (Mk_rmt RData (8 * k + pos) pos) have =
  from_data (S have) c data (Mk_rmt RData (8 * k + pos) pos) have.
Proof.
  assert (G : forall fuel fuel' k pos have, k < length data -> pos < 8 -> have < fuel -> have < fuel' ->
    from_data fuel c data (Mk_rmt RData (8 * k + pos) pos) have =
    from_data fuel' c data (Mk_rmt RData (8 * k + pos) pos) have).
  { induction fuel as [|f IH]; intros [|f'] k pos have Hk Hp Hf Hf'; try lia. cbn [from_data].
    destruct (stage_data k pos have Hk Hp) as (o & -> & Fu & St). cbn [rbind].
    apply chain_ext. intro Fo.
    destruct St as [(_ & _ & H & M)|(F & _)]; [|congruence].
    rewrite plain_length in H. rewrite M. unfold behind.
    destruct (Nat.eqb_spec (S k) (length data)) as [E|E]; cbn [m_state]; [reflexivity|].
    rewrite Fo in Fu. symmetry in Fu. apply Nat.leb_gt in Fu.
    apply chain_ext. intro F1.
    destruct (stage_sep k (o_have o)) as [(_ & _ & H1 & M1)|(F2 & _)]; try lia; [|congruence].
    rewrite M1. cbn [length] in H1. revert H1.
    generalize (o_have (enc_start c (Mk_rmt RData (8 * S k) 0) (o_have o))). intros h' H1.
    replace (8 * S k) with (8 * S k + 0) by lia. apply IH; lia. }
  intros. apply G; lia.
Qed.

Lemma from_start_does : forall have,
  exists o, from_start c data (Mk_rmt RStart 0 0) have = Ok o /\ does o start_rem have.
Proof.
  intros. unfold from_start, start_rem. eapply chain_does; [apply data_rem_length|apply stage_start|].
  intros h _ _. apply (from_data_does (S h) 0 0 h); lia.
Qed.

Lemma start_length : 1 <= length start_rem.
Proof. cbn. lia. Qed.

Lemma preamble_does : forall n have, n < N ->
  exists o, chain (enc_preamble c (Mk_rmt RPreamble n 0) have) (from_start c data) = Ok o /\
    does o (pre_rem n) have.
Proof.
  intros. unfold pre_rem. eapply chain_does; [apply start_length|now apply stage_pre|].
  intros. apply from_start_does.
Qed.

Lemma pre_length : forall n, 1 <= length (pre_rem n).
Proof. intros. unfold pre_rem. rewrite app_length. pose proof start_length. lia. Qed.

Lemma zimo_does : forall have,
  exists o, chain (enc_zimo0 c (Mk_rmt RZimo0 0 0) have)
              (fun m have => chain (enc_preamble c m have) (from_start c data)) = Ok o /\
    does o zimo_rem have.
Proof.
  intros. unfold zimo_rem. eapply chain_does; [apply pre_length|now apply stage_zimo|].
  intros. apply preamble_does. exact Npos.
Qed.

Lemma zimo_length : 1 <= length zimo_rem.
Proof. intros. unfold zimo_rem. rewrite app_length. pose proof (pre_length 0). lia. Qed.

Lemma encode_does : forall m rem have, at_ m rem ->
  exists o, rmt_encode c data m have = Ok o /\ does o rem have.
Proof.
  intros m rem have A. destruct A; unfold rmt_encode; cbn [m_state].
  - unfold bidi_rem. eapply chain_does; [apply zimo_length|now apply stage_bidi|].
    intros. apply zimo_does.
  - apply zimo_does.
  - now apply preamble_does.
  - apply from_start_does.
  - apply from_data_does; lia.
  - eexists. split; [reflexivity|]. apply does_end.
Qed.

Lemma session_does : forall haves m rem, at_ m rem ->
  exists m' , rmt_session c data m haves = Ok (fst (handed rem haves), m', snd (handed rem haves)) /\
    (snd (handed rem haves) = true -> m' = Mk_rmt RBiDi 0 0).
Proof.
  induction haves as [|h hs IH]; intros m rem A; cbn [rmt_session handed].
  - exists m. split; [reflexivity|]. intro H. discriminate H.
  - destruct (encode_does m rem h A) as (o & -> & S & C & T). cbn [rbind].
    rewrite C. destruct (Nat.leb_spec (length rem) h) as [L|L].
    + exists (o_rmt o). rewrite S, firstn_all2 by lia. split; [reflexivity|]. intros _. exact T.
    + destruct (IH _ _ T) as (m' & E & F). rewrite E. cbn [rbind].
      exists m'. rewrite S. destruct (handed (lose (skipn h rem)) hs) as [ss d]. cbn in F |- *.
      split; [reflexivity|exact F].
Qed.

Lemma between_at : forall first m, between first m -> at_ m (marked c first data).
Proof.
  intros first m ->.
  assert (Z : zimo_rem = marked c true data).
  { unfold zimo_rem, zimo_seg, pre_rem, start_rem, data_rem, marked, lead, frames_from.
    rewrite Nat.sub_0_r. cbn [orb List.app]. rewrite map_app, map_repeat.
    destruct data as [|b bs]; [cbn in Dpos; lia|]. cbn [skipn nth].
    rewrite <- !app_assoc. f_equal. now destruct (rc_zimo0 c). }
  destruct first; [rewrite <- Z; constructor|].
  replace (marked c false data) with (bidi_rem 0).
  { constructor; [lia|auto]. }
  unfold bidi_rem. rewrite Z. unfold marked, bidi_seg, lead. cbn [orb].
  rewrite !map_app, !app_assoc. do 3 f_equal.
  destruct (rc_bidibit c =? 0)%Z; reflexivity.
Qed.
End Encoder.
