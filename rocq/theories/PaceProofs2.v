(** The shortest packets of a command station *)
From Verif Require Import Prelude Address ZBits SpecCodec SpecTx TxProofs Tx RxState Rx CodecProofs CodecProofs2 RxLogic SpecRx
  RxBitProofs RxBitProofs2 RxBitProofs3 RxBitProofs4 RxBitProofs5 SpecExec SpecConf SpecCv SpecLogon SpecBidi SpecSafe SafeProofs2
  SpecLayout LayoutProofs4 LayoutProofs5 LayoutProofs6 SpecLayout2 LayoutProofs7 LayoutProofs8 ReplProofs ReplProofs3
  SpecStation StationProofs StationProofs2 AudibleProofs SpecPace PaceProofs.

(** ** From the definitions of the specification *)

Lemma attentive_every : forall n os, executes_every n os -> (0 < n)%nat ->
  attentive (fun _ => 1) (Z.of_nat n) 0 os.
Proof.
  intros n os He Hn.
  assert (K : forall os b, ~ In OExecute b -> executes_every n (b ++ os) ->
    attentive (fun _ => 1) (Z.of_nat n) (Z.of_nat (receives b)) os).
  { clear He os. induction os as [|o os IH]; intros b Hb He; [exact Logic.I|].
    assert (Hs : o <> OExecute -> attentive (fun _ => 1) (Z.of_nat n) (Z.of_nat (receives (b ++ [o]))) os).
    { intros Ho. apply IH; [|rewrite <- app_assoc; exact He].
      intros Hi. apply in_app_or in Hi. destruct Hi as [Hi|[Hi|[]]]; auto. }
    rewrite receives_snoc in Hs.
    destruct o as [| | |t| |ds| | |i v]; cbn [attentive is_receive] in *;
      try (rewrite Nat.add_0_r in Hs; apply Hs; discriminate).
    - replace (Z.of_nat (receives b + 1)) with (Z.of_nat (receives b) + 1) in Hs by lia.
      split; [|apply Hs; discriminate].
      destruct (Nat.le_gt_cases n (receives b + 1)) as [H|H]; [|lia]. exfalso.
      assert (Hin : In OExecute (b ++ [OReceive t])).
      { apply (He [] (b ++ [OReceive t]) os); [cbn [List.app]; rewrite <- app_assoc; reflexivity|].
        fold (receives (b ++ [OReceive t])). rewrite receives_snoc. exact H. }
      apply in_app_or in Hin. destruct Hin as [Hin|[Hin|[]]]; [auto|discriminate].
    - apply (IH []); [intros []|]. intros a b0 c Hc Hr.
      apply (He (b ++ OExecute :: a) b0 c); [|exact Hr]. cbn [List.app] in Hc. rewrite Hc, <- app_assoc. reflexivity. }
  apply (K os []); [intros []|exact He].
Qed.

Lemma elapsed_snoc : forall b t, elapsed (b ++ [OReceive t]) = elapsed b + t.
Proof.
  induction b as [|o b IH]; intros t; [cbn; lia|]. cbn [List.app elapsed fold_right]. fold (elapsed (b ++ [OReceive t])) (elapsed b).
  rewrite IH. destruct o; lia.
Qed.
Lemma elapsed_other : forall b o, is_receive o = false -> elapsed (b ++ [o]) = elapsed b.
Proof.
  induction b as [|x b IH]; intros o Ho; [destruct o; [..|discriminate Ho| | | | |]; reflexivity|].
  cbn [List.app elapsed fold_right]. fold (elapsed (b ++ [o])) (elapsed b). rewrite (IH o Ho). reflexivity.
Qed.

Lemma attentive_within : forall W os, executes_within W os -> 0 < W -> Forall (fun t => 0 <= t) (ts_of os) ->
  attentive (Z.max 0) W 0 os.
Proof.
  intros W os He HW Hp.
  assert (K : forall os b, ~ In OExecute b -> executes_within W (b ++ os) -> Forall (fun t => 0 <= t) (ts_of os) ->
    attentive (Z.max 0) W (elapsed b) os).
  { clear He os Hp. induction os as [|o os IH]; intros b Hb He Hp; [exact Logic.I|].
    change (ts_of (o :: os)) with (ts_of ([o] ++ os)) in Hp. unfold ts_of in Hp. rewrite flat_map_app in Hp.
    apply Forall_app in Hp. destruct Hp as [Hp1 Hp2]. fold (ts_of os) in Hp2.
    assert (Hs : o <> OExecute -> attentive (Z.max 0) W (elapsed (b ++ [o])) os).
    { intros Ho. apply IH; [|rewrite <- app_assoc; exact He|exact Hp2].
      intros Hi. apply in_app_or in Hi. destruct Hi as [Hi|[Hi|[]]]; auto. }
    destruct o as [| | |t| |ds| | |i v]; cbn [attentive] in *;
      try (rewrite elapsed_other in Hs by reflexivity; apply Hs; discriminate).
    - apply Forall_inv in Hp1. rewrite elapsed_snoc in Hs. replace (Z.max 0 t) with t by lia.
      split; [|apply Hs; discriminate].
      destruct (Z.le_gt_cases W (elapsed b + t)) as [H|H]; [|lia]. exfalso.
      assert (Hin : In OExecute (b ++ [OReceive t])).
      { apply (He [] (b ++ [OReceive t]) os); [cbn [List.app]; rewrite <- app_assoc; reflexivity|].
        rewrite elapsed_snoc. exact H. }
      apply in_app_or in Hin. destruct Hin as [Hin|[Hin|[]]]; [auto|discriminate].
    - apply (IH []); [intros []| |exact Hp2]. intros a b0 c Hc Hr.
      apply (He (b ++ OExecute :: a) b0 c); [|exact Hr]. cbn [List.app] in Hc. rewrite Hc, <- app_assoc. reflexivity. }
  apply (K os []); [intros []|exact He|exact Hp].
Qed.

(** ** Length of a packet *)

Definition count (x : bool) (bits : list bool) : Z := fold_right (fun b n => (if Bool.eqb b x then 1 else 0) + n) 0 bits.

Lemma count_app : forall x a b, count x (a ++ b) = count x a + count x b.
Proof. induction a as [|y a IH]; intros b; cbn [List.app count fold_right]; [reflexivity|]. fold (count x (a ++ b)) (count x a). rewrite IH. lia. Qed.
Lemma count_pos : forall x a, 0 <= count x a.
Proof. induction a as [|y a IH]; cbn [count fold_right]; [lia|]. fold (count x a). destruct (Bool.eqb y x); lia. Qed.
Lemma count_both : forall a, count true a + count false a = Z.of_nat (length a).
Proof. induction a as [|y a IH]; [reflexivity|]. cbn [count fold_right length]. fold (count true a) (count false a). destruct y; cbn [Bool.eqb]; lia. Qed.
Lemma count_ones : forall n, count true (repeat true n) = Z.of_nat n /\ count false (repeat true n) = 0.
Proof. induction n as [|n IH]; [split; reflexivity|]. cbn [repeat count fold_right Bool.eqb]. fold (count true (repeat true n)) (count false (repeat true n)). lia. Qed.

Lemma bit_testbit : forall b i, 0 <= i -> ((b / 2 ^ i) mod 2 =? 1) = Z.testbit b i.
Proof. intros b i Hi. rewrite Z.testbit_odd, Z.shiftr_div_pow2, Zmod_odd by lia. destruct (Z.odd (b / 2 ^ i)); reflexivity. Qed.

(** Three bytes whose checksum is right have a zero in each of the eight places *)
Lemma eight_zeros : forall a b, 8 <= count false (msb_first a) + count false (msb_first b) + count false (msb_first (Z.lxor a b)).
Proof.
  intros a b. unfold msb_first. cbn [map]. rewrite !bit_testbit by lia. rewrite !Z.lxor_spec.
  assert (K : forall x y, 1 <= (if Bool.eqb x false then 1 else 0) + (if Bool.eqb y false then 1 else 0) + (if Bool.eqb (xorb x y) false then 1 else 0))
    by (intros [] []; cbn; lia).
  cbn [count fold_right].
  pose proof (K (Z.testbit a 7) (Z.testbit b 7)). pose proof (K (Z.testbit a 6) (Z.testbit b 6)).
  pose proof (K (Z.testbit a 5) (Z.testbit b 5)). pose proof (K (Z.testbit a 4) (Z.testbit b 4)).
  pose proof (K (Z.testbit a 3) (Z.testbit b 3)). pose proof (K (Z.testbit a 2) (Z.testbit b 2)).
  pose proof (K (Z.testbit a 1) (Z.testbit b 1)). pose proof (K (Z.testbit a 0) (Z.testbit b 0)). lia.
Qed.

Lemma msb_length : forall b, length (msb_first b) = 8%nat.
Proof. reflexivity. Qed.

Lemma body_zeros : forall bs, Z.of_nat (length bs) <= count false (flat_map (fun b => false :: msb_first b) bs) /\
  length (flat_map (fun b => false :: msb_first b) bs) = (9 * length bs)%nat.
Proof.
  induction bs as [|b bs [IH1 IH2]]; [split; [cbn; lia|reflexivity]|]. cbn [flat_map]. rewrite count_app, app_length, IH2.
  split; [|cbn [length]; rewrite msb_length; lia]. change (count false (false :: msb_first b)) with (1 + count false (msb_first b)).
  pose proof (count_pos false (msb_first b)). cbn [length]. lia.
Qed.

(** No packet is shorter than an idle packet with the same preamble *)
Lemma shortest_bits : forall n bs d1 d0, packet_ok bs -> 0 <= d1 <= d0 -> 7 * d0 <= 16 * d1 ->
  (Z.of_nat n + 17) * d1 + 11 * d0 <= count true (track_bits n bs) * d1 + count false (track_bits n bs) * d0.
Proof.
  intros n bs d1 d0 (Hby & Hlen & Hx & _) Hd Hd2. unfold track_bits. rewrite !count_app.
  destruct (count_ones n) as [-> ->]. change (count true [true]) with 1. change (count false [true]) with 0.
  set (body := flat_map (fun b => false :: msb_first b) bs).
  destruct (body_zeros bs) as [Z1 Z2]. fold body in Z1, Z2.
  pose proof (count_both body) as Hb. rewrite Z2 in Hb.
  destruct (Nat.eq_dec (length bs) 3) as [E|E].
  - assert (Z11 : 11 <= count false body).
    { destruct bs as [|a [|b [|x [|]]]]; try discriminate E. cbn [xor_all fold_right] in Hx. rewrite Z.lxor_0_r in Hx.
      assert (Hxx : x = Z.lxor a b).
      { apply Z.bits_inj'. intros k _. apply (f_equal (fun z => Z.testbit z k)) in Hx. rewrite !Z.lxor_spec, Z.bits_0 in Hx. rewrite Z.lxor_spec.
        destruct (Z.testbit a k), (Z.testbit b k), (Z.testbit x k); cbn in Hx |- *; congruence. }
      unfold body. cbn [flat_map]. rewrite !count_app. rewrite Hxx. pose proof (eight_zeros a b).
      change (count false (false :: msb_first a)) with (1 + count false (msb_first a)).
      change (count false (false :: msb_first b)) with (1 + count false (msb_first b)).
      change (count false (false :: msb_first (Z.lxor a b))) with (1 + count false (msb_first (Z.lxor a b))).
      change (count false []) with 0. lia. }
    assert (count true body = 27 - count false body) by lia. nia.
  - assert (4 <= Z.of_nat (length bs)) by lia. set (L := Z.of_nat (length bs)) in *.
    assert (count true body = 9 * L - count false body) by lia. nia.
Qed.

Lemma total_half_bits : forall wt d1 d0 bits,
  total wt (half_bits d1 d0 bits) = 2 * (count true bits * wt d1 + count false bits * wt d0).
Proof.
  intros wt d1 d0 bits. unfold half_bits. induction bits as [|b bits IH]; [reflexivity|]. cbn [flat_map]. rewrite total_app, IH.
  cbn [count fold_right]. fold (count true bits) (count false bits). destruct b; cbn [Bool.eqb total fold_right]; lia.
Qed.

Lemma halves_total : forall c p wt, config_ok c -> packet_ok (bytes p) ->
  (forall d1 d0, 0 <= d1 <= d0 -> 7 * d0 <= 16 * d1 -> 0 <= wt d1 <= wt d0 /\ 7 * wt d0 <= 16 * wt d1) ->
  Z.min (2 * (34 * wt 58 + 11 * wt 100)) (2 * ((num_preamble c + 17) * wt (bit1_duration c) + 11 * wt (bit0_duration c)))
  <= total wt (halves c p).
Proof.
  intros c p wt (H1 & H2 & H3) Hp Hw. destruct p as [bs|]; cbn [halves bytes] in *; unfold packet_halves, idle_halves; rewrite total_half_bits.
  - destruct (Hw (bit1_duration c) (bit0_duration c) ltac:(lia) ltac:(lia)) as [W1 W2].
    pose proof (shortest_bits (Z.to_nat (num_preamble c)) bs _ _ Hp W1 W2) as H. rewrite Z2Nat.id in H by lia. lia.
  - destruct (Hw 58 100 ltac:(lia) ltac:(lia)) as [W1 W2].
    pose proof (shortest_bits 17 [0xFF; 0; 0xFF] _ _ Hp W1 W2) as H. change (Z.of_nat 17 + 17) with 34 in H. lia.
Qed.

(** ** Intervals as returned by transmit() *)

Definition direct (c : tx_config) (p : option (list Z)) : list (list Z) := map (fun t => [t]) (map fst (on_track c p)).

Lemma direct_block : forall c p, config_ok c -> packet_ok (bytes p) -> block c p (direct c p).
Proof.
  intros c p Hc Hp. unfold direct, on_track. rewrite !map_app, alternate_fst. fold (halves c p). split.
  - exists [true], (if cfg_bidi c then [[]; []; [false]; [false]; []] else []).
    assert (E : map halves_of (map (fun t => [t]) (halves c p)) = map (fun b => [b]) (doubled (bits_of c p))).
    { pose proof (halves_heard c p Hc) as H. revert H. generalize (halves c p) as ts, (doubled (bits_of c p)) as bs.
      induction ts as [|t ts IH]; intros [|b bs] H; try discriminate H; [reflexivity|]. cbn [map] in *.
      unfold halves_of at 1. cbn [flat_map]. assert (Hb : half_bit t = Some b) by congruence. rewrite Hb.
      rewrite (IH bs) by congruence. reflexivity. }
    split; [|split; [cbn; lia|split]].
    + rewrite map_app, E. rewrite (doubled_bits c p Hc Hp). cbn [tl map]. f_equal.
      destruct (cfg_bidi c); reflexivity.
    + destruct (cfg_bidi c); auto 10.
    + destruct (cfg_bidi c); reflexivity.
  - apply Forall_forall. intros l Hl. apply in_app_or in Hl.
    destruct Hl as [Hl|Hl]; apply in_map_iff in Hl; destruct Hl as (t & <- & _); cbn; lia.
Qed.

Lemma direct_concat : forall c ps n, concat (firstn n (concat (map (direct c) ps))) = firstn n (map fst (flat_map (on_track c) ps)).
Proof.
  intros c ps n.
  assert (E : concat (map (direct c) ps) = map (fun t => [t]) (map fst (flat_map (on_track c) ps))).
  { induction ps as [|p ps IH]; [reflexivity|]. cbn [map concat flat_map]. rewrite IH, !map_app. reflexivity. }
  rewrite E, firstn_map, concat_singles. reflexivity.
Qed.

Lemma direct_split : forall c p, firstn (length (halves c p)) (direct c p) = map (fun t => [t]) (halves c p) /\
  skipn (length (halves c p)) (direct c p) = map (fun t => [t]) (map fst (if cfg_bidi c then SpecTx.cutout c else [])).
Proof.
  intros c p. unfold direct, on_track. rewrite !map_app, alternate_fst. fold (halves c p).
  rewrite firstn_app, skipn_app, map_length, Nat.sub_diag, firstn_O, app_nil_r.
  replace (length (halves c p)) with (length (map (fun t : Z => [t]) (halves c p))) at 1 2 by apply map_length.
  rewrite firstn_all, skipn_all. split; reflexivity.
Qed.

Lemma direct_enough : forall c wt W w ps, config_ok c -> Forall (fun p => packet_ok (bytes p)) ps ->
  (forall d1 d0, 0 <= d1 <= d0 -> 7 * d0 <= 16 * d1 -> 0 <= wt d1 <= wt d0 /\ 7 * wt d0 <= 16 * wt d1) ->
  let k := (if cfg_bidi c then total wt [29; 51; 113; 261; 17] else 0) in
  W <= Z.min (2 * (34 * wt 58 + 11 * wt 100)) (2 * ((num_preamble c + 17) * wt (bit1_duration c) + 11 * wt (bit0_duration c))) + k ->
  k <= w -> enough wt c W w ps (map (direct c) ps).
Proof.
  intros c wt W w ps Hc Hps Hw k HW. revert w. induction Hps as [|p ps Hp Hps IH]; intros w Hk; [exact Logic.I|].
  cbn [map enough]. destruct (direct_split c p) as [-> ->]. rewrite !concat_singles.
  pose proof (halves_total c p wt Hc Hp Hw) as Hh. split; [lia|]. apply IH. unfold k. destruct (cfg_bidi c); cbn [SpecTx.cutout map fst]; [|cbn]; lia.
Qed.

Lemma ts_of_receives : forall os ts, filter is_receive os = map OReceive ts -> ts_of os = ts.
Proof.
  induction os as [|o os IH]; intros ts H.
  - destruct ts; [reflexivity|discriminate].
  - cbn [filter] in H. destruct o as [| | |t| |ds| | |i v]; cbn [is_receive] in H; try (apply IH; exact H).
    destruct ts as [|x ts]; [discriminate|]. cbn [map] in H.
    assert (x = t) as -> by congruence. cbn [ts_of flat_map List.app]. fold (ts_of os). f_equal. apply IH. congruence.
Qed.

Lemma firstn_In : forall (A : Type) n (l : list A) x, In x (firstn n l) -> In x l.
Proof. intros A n l x H. rewrite <- (firstn_skipn n l). apply in_or_app. left. exact H. Qed.

Lemma half_bits_pos : forall d1 d0 bits, 0 <= d1 -> 0 <= d0 -> Forall (fun t => 0 <= t) (half_bits d1 d0 bits).
Proof.
  intros d1 d0 bits H1 H0. apply Forall_forall. intros t H. unfold half_bits in H. apply in_flat_map in H.
  destruct H as (b & _ & H). destruct b; cbn in H; destruct H as [<-|[<-|[]]]; assumption.
Qed.

Lemma halves_pos : forall c p, config_ok c -> Forall (fun t => 0 <= t) (halves c p).
Proof.
  intros c p (H1 & H2 & H3). destruct p; cbn [halves]; unfold packet_halves, idle_halves; apply half_bits_pos; lia.
Qed.

Lemma track_pos : forall c p t es, config_ok c -> In (t, es) (on_track c p) -> 0 <= t.
Proof.
  intros c p t es Hc H. unfold on_track in H. apply in_app_or in H. destruct H as [H|H].
  - apply (in_map fst) in H. rewrite alternate_fst in H. fold (halves c p) in H. cbn [fst] in H.
    pose proof (halves_pos c p Hc) as Hp. rewrite Forall_forall in Hp. exact (Hp t H).
  - destruct (cfg_bidi c); [|destruct H]. cbn [SpecTx.cutout In] in H.
    repeat (destruct H as [H|H]; [injection H as <- <-; lia|]). destruct H.
Qed.

(** A decoder at the track of a station keeps up if execute() is called among any 90
    durations, or as often as packets can end *)
Theorem station_pace : forall c h dos, config_ok c -> history_ok c h -> Forall packet_ok (queued h) ->
  filter is_receive dos = map OReceive (map fst (ticks h)) -> ~ In ODisable dos ->
  paced c dos ->
  never_full dos listener0 /\ (length (l_queue (listen_all dos listener0)) <= 1)%nat.
Proof.
  intros c h dos Hc Hh Hpk Hdos Hnd Hex. destruct (history_halves c h Hc Hh Hpk) as [Hfn Hok].
  set (ps := None :: started h) in *. pose proof (ts_of_receives _ _ Hdos) as Hts.
  assert (Hb : Forall2 (block c) ps (map (direct c) ps)).
  { clear - Hok Hc. induction Hok as [|p ps Hp H IH]; constructor; [exact (direct_block c p Hc Hp)|exact IH]. }
  rewrite Hfn, <- direct_concat in Hts. destruct Hc as (C1 & C2 & C3).
  destruct Hex as [Hex|Hex].
  - set (W := Z.of_nat (if cfg_bidi c then 95 else 90)%nat).
    apply (stream_paced (fun _ => 1) ltac:(intros; lia) c W ps (map (direct c) ps) [] (length (ticks h)) dos);
      auto; try (repeat split; lia).
    + apply direct_enough; auto; try (repeat split; lia); change (total (fun _ => 1) [29; 51; 113; 261; 17]) with 5;
        unfold W; destruct (cfg_bidi c); lia.
    + apply attentive_every; [exact Hex|destruct (cfg_bidi c); lia].
  - assert (HW : 471 <= shortest c) by (unfold shortest; destruct (cfg_bidi c); nia).
    apply (stream_paced (Z.max 0) ltac:(intros; lia) c (shortest c) ps (map (direct c) ps) [] (length (ticks h)) dos);
      auto; try (repeat split; lia); try lia.
    + apply direct_enough; auto; try (repeat split; lia).
      * unfold shortest. rewrite (Z.max_r 0 (bit1_duration c)), (Z.max_r 0 (bit0_duration c)) by lia. destruct (cfg_bidi c); cbn; lia.
      * destruct (cfg_bidi c); cbn; lia.
    + apply attentive_within; [exact Hex|lia|]. rewrite Hts, direct_concat.
      apply Forall_forall. intros t Ht. apply firstn_In in Ht. apply in_map_iff in Ht. destruct Ht as ((t', es) & <- & Ht).
      apply in_flat_map in Ht. destruct Ht as (p & _ & Ht). cbn [fst]. apply (track_pos c p t' es); [repeat split; lia|exact Ht].
Qed.
