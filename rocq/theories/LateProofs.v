(** A decoder that is switched on while a station is sending *)
From Verif Require Import Prelude Address ZBits SpecCodec SpecTx TxProofs Tx RxState Rx CodecProofs CodecProofs2 RxLogic SpecRx
  RxBitProofs RxBitProofs2 RxBitProofs3 RxBitProofs4 RxBitProofs5 SpecExec SpecConf SpecCv SpecLogon SpecBidi SpecSafe SafeProofs2
  SpecLayout LayoutProofs4 LayoutProofs5 LayoutProofs6 SpecLayout2 LayoutProofs7 LayoutProofs8 ReplProofs ReplProofs3
  SpecStation StationProofs StationProofs2 StationProofs4 AudibleProofs SpecPace PaceProofs PaceProofs2 SpecLate.

(** ** Ends of packets *)

Lemma calm_le : forall hs j j', calm j hs -> (j' <= j)%nat -> calm j' hs.
Proof.
  induction hs as [|b hs IH]; intros j j' H Hj; [exact Logic.I|]. destruct H as [H1 H2]. split; [lia|].
  eapply IH; [exact H2|]. destruct b; lia.
Qed.

Lemma trailing_le : forall hs j j', (j' <= j)%nat -> (trailing j' hs <= trailing j hs)%nat.
Proof. induction hs as [|b hs IH]; intros j j' H; [exact H|]. cbn [trailing fold_left]. apply IH. destruct b; lia. Qed.

Lemma calm_short : forall hs j, (j + length hs <= 20)%nat -> calm j hs /\ (trailing j hs <= j + length hs)%nat.
Proof.
  induction hs as [|b hs IH]; intros j H; cbn [length] in *; [split; [exact Logic.I|cbn; lia]|].
  destruct (IH (if b then S j else 0)%nat ltac:(destruct b; lia)) as [H1 H2].
  split; [split; [lia|exact H1]|]. cbn [trailing fold_left]. unfold trailing in H2. destruct b; lia.
Qed.

Lemma calm_ones : forall k j hs, (j + k <= 20)%nat -> calm j (repeat true k ++ hs) <-> calm (j + k) hs.
Proof.
  induction k as [|k IH]; intros j hs H; cbn [repeat List.app calm]; [rewrite Nat.add_0_r; tauto|].
  rewrite IH by lia. replace (S j + k)%nat with (j + S k)%nat by lia. intuition lia.
Qed.

Lemma doubled_length : forall l, length (doubled l) = (2 * length l)%nat.
Proof. induction l as [|b l IH]; [reflexivity|]. cbn [doubled flat_map List.app length]. fold (doubled l). rewrite IH. lia. Qed.

(** The bytes and the end bit of a packet, behind any ones *)
Lemma calm_body : forall bs j, (j < 20)%nat -> let hs := doubled (flat_map (fun b => false :: msb_first b) bs) in
  calm j hs /\ (trailing j hs <= Nat.max j 16)%nat.
Proof.
  intros bs j Hj. revert j Hj. induction bs as [|b bs IH]; intros j Hj; cbv zeta; [split; [exact Logic.I|cbn; lia]|].
  cbn [flat_map]. rewrite doubled_app. cbn [doubled flat_map]. fold (doubled (msb_first b)).
  change ([false; false] ++ doubled (msb_first b)) with (false :: false :: doubled (msb_first b)). cbn [List.app calm].
  assert (Hl : length (doubled (msb_first b)) = 16%nat) by (rewrite doubled_length, msb_length; reflexivity).
  destruct (calm_short (doubled (msb_first b)) 0 ltac:(lia)) as [C1 C2]. rewrite Hl in C2.
  destruct (IH (trailing 0 (doubled (msb_first b))) ltac:(lia)) as [D1 D2].
  rewrite calm_app. split; [split; [exact Hj|split; [lia|split; [exact C1|exact D1]]]|].
  cbn [trailing fold_left]. fold (trailing 0 (doubled (msb_first b) ++ doubled (flat_map (fun b0 => false :: msb_first b0) bs))).
  rewrite trailing_app. lia.
Qed.

Lemma calm_frame : forall bs, (0 < length bs)%nat -> let hs := [false; false] ++ doubled (frame_bits bs) in
  calm 19 hs /\ (trailing 19 hs < 20)%nat.
Proof.
  intros bs Hbs hs. assert (E : hs = doubled (flat_map (fun b => false :: msb_first b) bs) ++ [true; true]).
  { unfold hs, frame_bits. destruct bs as [|b bs]; [cbn in Hbs; lia|]. cbn [flat_map List.app tl].
    change (doubled (false :: msb_first b ++ flat_map (fun b0 => false :: msb_first b0) bs))
      with ([false; false] ++ doubled (msb_first b ++ flat_map (fun b0 => false :: msb_first b0) bs)).
    rewrite doubled_app. reflexivity. }
  rewrite E. clear E hs. destruct bs as [|b bs]; [cbn in Hbs; lia|].
  destruct (calm_body (b :: bs) 19 ltac:(lia)) as [C1 _].
  assert (C2 : (trailing 19 (doubled (flat_map (fun b => false :: msb_first b) (b :: bs))) <= 16)%nat).
  { change (doubled (flat_map (fun b => false :: msb_first b) (b :: bs)))
      with (false :: false :: doubled (msb_first b ++ flat_map (fun b => false :: msb_first b) bs)).
    cbn [trailing fold_left].
    pose proof (calm_body (b :: bs) 0 ltac:(lia)) as [_ C].
    change (doubled (flat_map (fun b => false :: msb_first b) (b :: bs)))
      with (false :: false :: doubled (msb_first b ++ flat_map (fun b => false :: msb_first b) bs)) in C.
    cbn [trailing fold_left] in C. unfold trailing in *. lia. }
  rewrite calm_app. set (T := trailing 19 _) in *. rewrite trailing_app. fold T.
  split; [split; [exact C1|cbn [calm]; split; [lia|split; [lia|exact Logic.I]]]|cbn [trailing fold_left]; lia].
Qed.

Lemma suffix_calm : forall m k hs, (m <= k)%nat -> (k - m < 20)%nat -> calm 19 hs -> (trailing 19 hs < 20)%nat ->
  calm 0 (skipn m (repeat true k ++ hs)) /\ (trailing 0 (skipn m (repeat true k ++ hs)) < 20)%nat.
Proof.
  intros m k hs H1 H2 H3 H4.
  replace (repeat true k) with (repeat true m ++ repeat true (k - m)) by (rewrite <- repeat_app; f_equal; lia).
  rewrite <- app_assoc, skipn_app, repeat_length, Nat.sub_diag, skipn_all2 by (rewrite repeat_length; lia).
  cbn [skipn List.app]. split.
  - apply calm_ones; [lia|]. apply (calm_le _ _ _ H3). lia.
  - rewrite trailing_app. assert (E : trailing 0 (repeat true (k - m)) = (k - m)%nat).
    { pose proof (calm_short (repeat true (k - m)) 0) as H. clear. 
      assert (G : forall n j, trailing j (repeat true n) = (j + n)%nat).
      { induction n as [|n IH]; intros j; [cbn; lia|]. cbn [repeat trailing fold_left]. unfold trailing in IH. rewrite IH. lia. }
      rewrite G. lia. }
    rewrite E. pose proof (trailing_le hs 19 (k - m) ltac:(lia)). lia.
Qed.

Lemma rest_calm : forall m j hs, calm j hs -> calm 0 (skipn m hs) /\ (trailing 0 (skipn m hs) <= trailing j hs)%nat.
Proof.
  intros m j hs H. rewrite <- (firstn_skipn m hs) in H. apply calm_app in H. destruct H as [_ H].
  split; [apply (calm_le _ _ _ H); lia|]. rewrite <- (firstn_skipn m hs) at 2. rewrite trailing_app. apply trailing_le. lia.
Qed.

(** ** A beginning in the middle *)

Lemma first_run : forall c ps ess bs k rest, config_ok c -> Forall2 (heard_as c) ps ess -> Forall (fun p => packet_ok (bytes p)) ps ->
  packet_ok bs -> Forall (fun l => l = [] \/ l = [false]) rest -> length rest = (if cfg_bidi c then 5 else 0)%nat ->
  forall n j f, quiet j f -> (20 <= j + k)%nat -> (1 <= k)%nat ->
  let hs := repeat true k ++ [false; false] ++ doubled (frame_bits bs) in
  let es := map (fun b => [b]) hs ++ rest ++ concat ess in
  fits f (concat (firstn n es)) /\
  arun f (concat (firstn n es)) =
    if (n <? length hs)%nat then [] else bs :: finished c ps (n - length hs - (if cfg_bidi c then 5 else 0)).
Proof.
  intros c ps ess bs k rest Hc H Hps Hp Hrest Hlr n j f Hq Hk Hk1 hs es.
  destruct (frame_run bs k j f Hp Hq Hk Hk1) as (F1 & F2 & F3 & init & F4 & F5).
  fold hs in F1, F2, F3, F4. clearbody hs. subst es.
  rewrite firstn_app, concat_app, fits_app, arun_app, map_length, firstn_map, concat_singles.
  destruct (Nat.ltb_spec n (length hs)) as [Hn|Hn].
  - replace (n - length hs)%nat with 0%nat by lia. rewrite firstn_O. cbn [concat fits arun]. rewrite app_nil_r.
    rewrite <- (firstn_skipn n hs) in F1 at 1. apply fits_app in F1. split; [split; [apply F1|exact Logic.I]|].
    assert (Hl : (n <= length init)%nat).
    { apply (f_equal (@length _)) in F4. rewrite app_length in F4. cbn [length] in F4. lia. }
    rewrite F4, firstn_map_cons by exact Hl. rewrite <- (firstn_skipn n init), arun_app in F5.
    apply app_eq_nil in F5. apply F5.
  - rewrite firstn_all2 by lia. rewrite F3. set (m := (n - length hs)%nat).
    rewrite firstn_app, concat_app, Hlr.
    destruct (zeros_concat rest m Hrest) as (z & ->). rewrite fits_app, arun_app.
    assert (Hz : calm 0 (repeat false z) /\ trailing 0 (repeat false z) = 0%nat).
    { clear. induction z as [|z IH]; [split; [exact Logic.I|reflexivity]|]. cbn [repeat calm trailing fold_left].
      destruct IH as [A B]. split; [split; [lia|exact A]|exact B]. }
    destruct Hz as [Z0 Zt]. destruct (calm_run _ 0 _ F2 Z0) as (Z1 & Z2 & Z3). rewrite Zt in Z3. rewrite Z2.
    destruct (stream_run c ps ess Hc H Hps (m - (if cfg_bidi c then 5 else 0))%nat 0%nat _ Z3 ltac:(lia)) as [I1 I2].
    cbn [List.app]. rewrite I2. auto.
Qed.

Lemma skipn_add : forall (A : Type) a b (l : list A), skipn a (skipn b l) = skipn (b + a) l.
Proof. induction b as [|b IH]; intros l; [reflexivity|]. destruct l as [|x l]; [rewrite !skipn_nil; reflexivity|]. cbn [Nat.add skipn]. apply IH. Qed.

Lemma concat_skipn_singles : forall (A : Type) m (l : list A), concat (skipn m (map (fun b => [b]) l)) = skipn m l.
Proof. intros. rewrite skipn_map, concat_singles. reflexivity. Qed.

Lemma halves_of_singles : forall l, halves_of l = concat (map halves_of (map (fun t => [t]) l)).
Proof.
  induction l as [|t l IH]; [reflexivity|]. cbn [map concat]. rewrite <- IH. change (t :: l) with ([t] ++ l).
  unfold halves_of. rewrite flat_map_app. reflexivity.
Qed.

(** The intervals of a packet, as they are heard *)
Lemma direct_heard : forall c p, config_ok c -> packet_ok (bytes p) -> exists rest,
  map halves_of (direct c p) = map (fun b => [b]) (doubled (bits_of c p)) ++ rest /\
  Forall (fun l => l = [] \/ l = [false]) rest /\ length rest = (if cfg_bidi c then 5 else 0)%nat.
Proof.
  intros c p Hc Hp. exists (if cfg_bidi c then [[]; []; [false]; [false]; []] else []).
  unfold direct, on_track. rewrite !map_app, alternate_fst. fold (halves c p). split; [|destruct (cfg_bidi c); auto 10].
  f_equal; [|destruct (cfg_bidi c); reflexivity].
  pose proof (halves_heard c p Hc) as H. revert H. generalize (halves c p) as ts, (doubled (bits_of c p)) as bs.
  induction ts as [|t ts IH]; intros [|b bs] H; try discriminate H; [reflexivity|]. cbn [map] in *.
  unfold halves_of at 1. cbn [flat_map]. assert (Hb : half_bit t = Some b) by congruence. rewrite Hb.
  rewrite (IH bs) by congruence. reflexivity.
Qed.

Lemma track_halves : forall c ps, map halves_of (map (fun t => [t]) (map fst (flat_map (on_track c) ps))) =
  concat (map (map halves_of) (map (direct c) ps)).
Proof.
  intros c ps. induction ps as [|p ps IH]; [reflexivity|]. cbn [map concat flat_map]. rewrite !map_app, IH. reflexivity.
Qed.

Lemma direct_all : forall c ps, config_ok c -> Forall (fun p => packet_ok (bytes p)) ps ->
  Forall2 (heard_as c) ps (map (map halves_of) (map (direct c) ps)).
Proof.
  intros c ps Hc H. induction H as [|p ps Hp H IH]; constructor; [apply (direct_block c p Hc Hp)|exact IH].
Qed.

Lemma late_run : forall c ps, config_ok c -> Forall (fun p => packet_ok (bytes p)) ps -> forall m n f, quiet 0 f -> (m <= n)%nat ->
  let hs := halves_of (skipn m (firstn n (map fst (flat_map (on_track c) ps)))) in
  fits f hs /\ arun f hs = skipn (missed c ps m) (finished c ps n).
Proof.
  intros c ps Hc Hps. induction Hps as [|p ps Hp Hps IH]; intros m n f Hq Hmn; cbv zeta.
  { cbn [flat_map map missed finished]. rewrite firstn_nil, !skipn_nil. split; [exact Logic.I|reflexivity]. }
  destruct (direct_heard c p Hc Hp) as (rest & Hd & Hrest & Hlr).
  assert (Hlen : length (map fst (on_track c p)) = (length (halves c p) + (if cfg_bidi c then 5 else 0))%nat).
  { unfold on_track. rewrite map_app, alternate_fst. fold (halves c p). rewrite app_length. destruct (cfg_bidi c); reflexivity. }
  cbn [flat_map]. rewrite map_app.
  assert (Hpl : (length (halves c p) = 2 * preamble_of c p + length ([false; false] ++ doubled (frame_bits (bytes p))))%nat).
  { rewrite (halves_length c p Hc), (doubled_bits c p Hc Hp). cbn [length]. rewrite app_length, repeat_length.
    assert (1 <= preamble_of c p)%nat by (destruct Hc; destruct p; cbn; lia). lia. }
  assert (Em : missed c (p :: ps) m = if (m + 20 <=? 2 * preamble_of c p)%nat then 0%nat
     else S (missed c ps (m - length (halves c p) - (if cfg_bidi c then 5 else 0)))).
  { cbn [missed]. rewrite <- Nat.sub_add_distr, <- Hlen, map_length. destruct p; reflexivity. }
  assert (Ef : finished c (p :: ps) n = if (n <? length (halves c p))%nat then []
     else bytes p :: finished c ps (n - length (halves c p) - (if cfg_bidi c then 5 else 0))) by (destruct p; reflexivity).
  rewrite Em, Ef. clear Em Ef.
  destruct (Nat.le_gt_cases (length (map fst (on_track c p))) m) as [Hm|Hm].
  { rewrite firstn_app, skipn_app, firstn_length, skipn_all2 by (rewrite firstn_length; lia). cbn [List.app].
    replace (Nat.min n (length (map fst (on_track c p)))) with (length (map fst (on_track c p))) by lia.
    destruct (Nat.leb_spec (m + 20) (2 * preamble_of c p)) as [Hx|Hx]; [rewrite Hlen, Hpl in Hm; lia|].
    destruct (Nat.ltb_spec n (length (halves c p))) as [Hy|Hy]; [lia|]. cbn [skipn].
    rewrite <- !Nat.sub_add_distr, <- Hlen. apply IH; [exact Hq|lia]. }
  rewrite halves_of_singles, skipn_firstn_comm, <- firstn_map, <- firstn_map, <- skipn_map, <- skipn_map.
  rewrite !map_app. fold (direct c p). rewrite Hd, track_halves.
  set (ess := map (map halves_of) (map (direct c) ps)).
  pose proof (direct_all c ps Hc Hps) as Hall. fold ess in Hall.
  rewrite (doubled_bits c p Hc Hp).
  assert (Hp1 : (1 <= preamble_of c p)%nat) by (destruct Hc; destruct p; cbn; lia).
  set (F := [false; false] ++ doubled (frame_bits (bytes p))) in *.
  change (true :: repeat true (2 * preamble_of c p - 1) ++ F) with (repeat true (S (2 * preamble_of c p - 1)) ++ F).
  replace (S (2 * preamble_of c p - 1)) with (2 * preamble_of c p)%nat by lia. set (P := (2 * preamble_of c p)%nat) in *.
  destruct (Nat.leb_spec (m + 20) P) as [Hx|Hx].
  - (* enough of the preamble is left *)
    replace (repeat true P) with (repeat true m ++ repeat true (P - m)) by (rewrite <- repeat_app; f_equal; lia).
    rewrite <- !app_assoc, map_app, <- app_assoc.
    rewrite (skipn_app m), map_length, repeat_length, Nat.sub_diag, skipn_all2 by (rewrite map_length, repeat_length; lia).
    change (skipn 0 ?l) with l. cbn [List.app].
    destruct (first_run c ps ess (bytes p) (P - m) rest Hc Hall Hps Hp Hrest Hlr (n - m) 0 f Hq ltac:(lia) ltac:(lia)) as [G1 G2].
    fold F in G1, G2. split; [exact G1|]. rewrite G2. cbn [skipn]. rewrite app_length, repeat_length, Hpl.
    destruct (Nat.ltb_spec (n - m) (P - m + length F)), (Nat.ltb_spec n (P + length F)); try lia; [reflexivity|].
    f_equal. f_equal. lia.
  - (* the rest of this packet is nothing *)
    assert (HL : length (map (fun b : bool => [b]) (repeat true P ++ F) ++ rest) = (P + length F + (if cfg_bidi c then 5 else 0))%nat)
      by (rewrite app_length, map_length, app_length, repeat_length, Hlr; reflexivity).
    rewrite Hlen, Hpl in Hm.
    rewrite (skipn_app m), HL. replace (m - (P + length F + (if cfg_bidi c then 5 else 0)))%nat with 0%nat by lia. change (skipn 0 ?l) with l.
    rewrite firstn_app, concat_app, fits_app, arun_app, skipn_length, HL.
    set (A := concat (firstn (n - m) (skipn m (map (fun b : bool => [b]) (repeat true P ++ F) ++ rest)))).
    assert (HA : calm 0 A /\ (trailing 0 A < 20)%nat).
    { assert (HF : calm 19 F /\ (trailing 19 F < 20)%nat) by (apply calm_frame; destruct Hp as (_ & Hq1 & _); lia).
      destruct HF as [HF1 HF2].
      assert (HB : calm 0 (skipn m (repeat true P ++ F)) /\ (trailing 0 (skipn m (repeat true P ++ F)) < 20)%nat).
      { destruct (Nat.le_gt_cases m P) as [Hmp|Hmp]; [apply suffix_calm; try assumption; lia|].
        rewrite skipn_app, repeat_length, skipn_all2 by (rewrite repeat_length; lia). cbn [List.app].
        destruct (rest_calm (m - P) 19 F HF1) as [R1 R2]. split; [exact R1|lia]. }
      assert (HC : exists a z, A = firstn a (skipn m (repeat true P ++ F)) ++ repeat false z).
      { unfold A. rewrite skipn_app, firstn_app, concat_app, skipn_map, firstn_map, concat_singles.
        exists (n - m)%nat. 
        assert (Hsk : Forall (fun l => l = [] \/ l = [false]) (skipn (m - length (map (fun b : bool => [b]) (repeat true P ++ F))) rest)).
        { rewrite Forall_forall in *. intros x Hi. apply Hrest. rewrite <- (firstn_skipn (m - length (map (fun b : bool => [b]) (repeat true P ++ F))) rest).
          apply in_or_app. right. exact Hi. }
        destruct (zeros_concat _ (n - m - length (map (fun b : bool => [b]) (skipn m (repeat true P ++ F)))) Hsk) as (z & Hz).
        exists z. rewrite Hz. reflexivity. }
      destruct HC as (a & z & ->). set (B := skipn m (repeat true P ++ F)) in *. destruct HB as [HB1 HB2].
      assert (HD : calm 0 (firstn a B) /\ (trailing 0 (firstn a B) < 20)%nat).
      { rewrite <- (firstn_skipn a B) in HB1, HB2. apply calm_app in HB1. destruct HB1 as [K1 K2]. split; [exact K1|].
        rewrite trailing_app in HB2. destruct (skipn a B) as [|x r]; [exact HB2|]. apply K2. }
      destruct HD as [D1 D2]. rewrite calm_app, trailing_app. set (T := trailing 0 (firstn a B)) in *. clearbody T. clear - D1 D2.
      assert (Hz : forall z T, (T < 20)%nat -> calm T (repeat false z) /\ (trailing T (repeat false z) < 20)%nat).
      { clear. induction z as [|z IH]; intros T HT; [split; [exact Logic.I|exact HT]|]. cbn [repeat calm trailing fold_left].
        destruct (IH 0%nat ltac:(lia)) as [U V]. split; [split; [lia|exact U]|exact V]. }
      destruct (Hz z T D2) as [U V]. auto. }
    destruct HA as [A1 A2]. destruct (calm_run A 0 f Hq A1) as (B1 & B2 & B3).
    destruct (stream_run c ps ess Hc Hall Hps (n - m - (P + length F + (if cfg_bidi c then 5 else 0) - m))%nat _ _ B3 A2) as [I1 I2].
    rewrite B2, I2. split; [auto|]. cbn [List.app].
    replace (m - length (halves c p) - (if cfg_bidi c then 5 else 0))%nat with 0%nat by lia.
    assert (M0 : missed c ps 0 = 0%nat).
    { destruct ps as [|q ps']; [reflexivity|]. cbn [missed]. destruct q; cbn [Nat.add preamble];
        match goal with |- (if (?a <=? ?b)%nat then _ else _) = _ => destruct (Nat.leb_spec a b); [reflexivity|destruct Hc; lia] end. }
    rewrite M0, Hpl. destruct (Nat.ltb_spec n (P + length F)); cbn [skipn].
    + replace (n - m - _)%nat with 0%nat by lia. destruct ps as [|q ps']; [reflexivity|]. cbn [finished].
      assert (0 < length (halves c q))%nat.
      { inversion Hps; subst. rewrite (halves_length c q Hc), (doubled_bits c q Hc) by assumption. cbn [length]. lia. }
      destruct q; cbn [halves] in *; match goal with |- (if (?a <? ?b)%nat then _ else _) = _ => destruct (Nat.ltb_spec a b); [reflexivity|lia] end.
    + f_equal. lia.
Qed.
