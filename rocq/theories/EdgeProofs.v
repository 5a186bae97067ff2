(** Through two wires: what a decoder board captures of a track *)
From Verif Require Import Prelude Address ZBits SpecCodec SpecTx TxProofs Tx RxState Rx CodecProofs CodecProofs2 RxLogic SpecRx
  RxBitProofs RxBitProofs2 RxBitProofs3 RxBitProofs4 RxBitProofs5 SpecExec SpecConf SpecCv SpecLogon SpecBidi SpecSafe SafeProofs2
  SpecLayout LayoutProofs4 LayoutProofs5 LayoutProofs6 SpecLayout2 LayoutProofs7 LayoutProofs8 ReplProofs ReplProofs3
  SpecStation StationProofs StationProofs2 AudibleProofs SpecPace PaceProofs PaceProofs2 Stm32 SpecEdges.

(** ** Station, wires and capture unit together *)

Definition cst : Type := bool * Z * pins.

Fixpoint csteps (s : cst) (xs : list (Z * list tx_event)) : list Z * cst :=
  match xs with
  | [] => ([], s)
  | (t, es) :: r =>
      let '(ti2, since, p) := s in
      let p' := fold_left write_track es p in
      if (if ti2 then negb (snd p) && snd p' else negb (fst p) && fst p')
      then let '(o, s') := csteps (negb ti2, t + 1, p') r in (since mod 65536 :: o, s')
      else csteps (ti2, since + (t + 1), p') r
  end.

Lemma csteps_capture : forall xs ti2 since p, capture ti2 since p (wave p xs) = fst (csteps (ti2, since, p) xs).
Proof.
  induction xs as [|[t es] xs IH]; intros ti2 since p; [reflexivity|]. cbn [wave capture csteps]. cbv zeta.
  set (p' := fold_left write_track es p).
  destruct (if ti2 then negb (snd p) && snd p' else negb (fst p) && fst p'); rewrite IH; [|reflexivity].
  destruct (csteps (negb ti2, t + 1, p') xs). reflexivity.
Qed.

Lemma csteps_app : forall a s b, csteps s (a ++ b) =
  let '(o1, s1) := csteps s a in let '(o2, s2) := csteps s1 b in (o1 ++ o2, s2).
Proof.
  induction a as [|[t es] a IH]; intros [[ti2 since] p] b; cbn [List.app csteps].
  - destruct (csteps (ti2, since, p) b). reflexivity.
  - cbv zeta. set (p' := fold_left write_track es p).
    destruct (if ti2 then negb (snd p) && snd p' else negb (fst p) && fst p'); rewrite IH; [|reflexivity].
    destruct (csteps (negb ti2, t + 1, p') a) as [o1 s1]. destruct (csteps s1 b). reflexivity.
Qed.

(** In step with the station: [b] for a first half, [s] for the ticks since the capture *)
Definition sync (c : tx_config) (b : bool) (s : Z) : cst :=
  let i := cfg_invert c in if b then (i, s, (i, negb i)) else (negb i, s, (negb i, i)).

Lemma sync_step : forall c b s t, csteps (sync c b s) [(t, [if negb b then first_half c else second_half c])] =
  ([s mod 65536], sync c (negb b) (t + 1)).
Proof. intros c b s t. unfold sync. destruct b, (cfg_invert c) eqn:E; cbn; unfold first_half, second_half; rewrite E; reflexivity. Qed.

Definition m16 (d : Z) : Z := d mod 65536.

(** Half bits: all but the last are captured *)
Lemma sync_alternate : forall c ts b s, exists o u,
  csteps (sync c b s) (alternate c (negb b) ts) = (o, sync c (if Nat.odd (length ts) then negb b else b) u) /\
  o ++ [m16 u] = map m16 (s :: map (Z.add 1) ts).
Proof.
  intros c ts. induction ts as [|t ts IH]; intros b s; [exists [], s; split; reflexivity|].
  cbn [alternate]. change ((t, [if negb b then first_half c else second_half c]) :: alternate c (negb (negb b)) ts)
    with ([(t, [if negb b then first_half c else second_half c])] ++ alternate c (negb (negb b)) ts).
  rewrite csteps_app, sync_step. destruct (IH (negb b) (t + 1)) as (o & u & -> & Ho).
  exists (m16 s :: o), u. split.
  - cbn [length]. rewrite Nat.odd_succ, <- Nat.negb_odd. destruct (Nat.odd (length ts)), b; reflexivity.
  - cbn [List.app map]. rewrite Ho. cbn [map]. replace (1 + t) with (t + 1) by lia. reflexivity.
Qed.

Lemma sync_prefix : forall c ts b s n, (n <= length ts)%nat ->
  fst (csteps (sync c b s) (firstn n (alternate c (negb b) ts))) = firstn n (map m16 (s :: map (Z.add 1) ts)).
Proof.
  intros c ts. induction ts as [|t ts IH]; intros b s n Hn.
  - cbn [length] in Hn. replace n with 0%nat by lia. reflexivity.
  - destruct n as [|n]; [reflexivity|]. cbn [length] in Hn. cbn [alternate firstn].
    change ((t, [if negb b then first_half c else second_half c]) :: firstn n (alternate c (negb (negb b)) ts))
      with ([(t, [if negb b then first_half c else second_half c])] ++ firstn n (alternate c (negb (negb b)) ts)).
    rewrite csteps_app, sync_step. specialize (IH (negb b) (t + 1) n ltac:(lia)).
    destruct (csteps (sync c (negb b) (t + 1)) _) as [o s']. cbn [fst List.app] in *. rewrite IH. cbn [map].
    replace (1 + t) with (t + 1) by lia. reflexivity.
Qed.

(** The cutout: the last half bit is captured, then nothing *)
Lemma sync_cutout : forall c s n, (1 <= n <= 5)%nat -> fst (csteps (sync c false s) (firstn n (SpecTx.cutout c))) = [m16 s].
Proof.
  intros c s n Hn. destruct n as [|[|[|[|[|[|]]]]]]; try lia; unfold sync; destruct (cfg_invert c) eqn:E;
    cbn [firstn SpecTx.cutout]; unfold first_half; rewrite E; reflexivity.
Qed.
Lemma sync_after : forall c s t, csteps (sync c false s) (SpecTx.cutout c ++ [(t, [first_half c])]) = ([m16 s], sync c true (t + 477)).
Proof.
  intros c s t. destruct c as [np b1 b0 i bd]. unfold sync, SpecTx.cutout, first_half. cbn [cfg_invert].
  destruct i; cbn -[Z.add Z.modulo];
    replace (29 + 1 + (51 + 1) + (113 + 1) + (261 + 1) + (17 + 1) + (t + 1)) with (t + 477) by lia; reflexivity.
Qed.

(** ** Captured durations, interval by interval *)

Lemma halves_cons : forall c p, config_ok c -> packet_ok (bytes p) -> exists t r, halves c p = t :: r /\ Nat.odd (length r) = true.
Proof.
  intros c p Hc Hp. pose proof (halves_length c p Hc) as H. destruct (halves c p) as [|t r].
  - rewrite (doubled_bits c p Hc Hp) in H. discriminate H.
  - exists t, r. split; [reflexivity|]. cbn [length] in H.
    assert (Hd : forall l, length (doubled l) = (2 * length l)%nat).
    { induction l as [|x l IH]; [reflexivity|]. change (doubled (x :: l)) with (x :: x :: doubled l). cbn [length]. lia. }
    rewrite Hd in H. apply Nat.odd_spec. exists (length (bits_of c p) - 1)%nat. lia.
Qed.

Definition emission (c : tx_config) (s : Z) (p : option (list Z)) : list (list Z) :=
  map (fun t => [t]) (s :: map (Z.add 1) (tl (halves c p))) ++ repeat [] (if cfg_bidi c then 5 else 0).

Lemma no_durations : forall m k, concat (firstn m (repeat (@nil Z) k)) = [].
Proof.
  intros m k. revert m. induction k as [|k IH]; intros m; [rewrite firstn_nil; reflexivity|].
  destruct m as [|m]; [reflexivity|]. cbn [repeat firstn concat]. rewrite IH. reflexivity.
Qed.

Lemma alternate_length : forall c b ts, length (alternate c b ts) = length ts.
Proof. intros c b ts. rewrite <- (map_length fst), alternate_fst. reflexivity. Qed.

Lemma aligned_head : forall c p s n, config_ok c -> packet_ok (bytes p) -> (n <= length (tl (on_track c p)))%nat ->
  fst (csteps (sync c true s) (firstn n (tl (on_track c p)))) = map m16 (concat (firstn n (emission c s p))).
Proof.
  intros c p s n Hc Hp Hn. destruct (halves_cons c p Hc Hp) as (t0 & ts & Eh & Hodd).
  unfold on_track, emission in *. fold (halves c p) in *. rewrite Eh in *. cbn [alternate List.app tl negb] in *.
  rewrite app_length, alternate_length in Hn. rewrite !firstn_app, alternate_length, map_length. cbn [length]. rewrite map_length.
  rewrite concat_app, no_durations, app_nil_r, firstn_map, concat_singles.
  destruct (Nat.le_gt_cases n (length ts)) as [Hle|Hgt].
  - replace (n - length ts)%nat with 0%nat by lia. rewrite firstn_O, app_nil_r.
    pose proof (sync_prefix c ts true s n Hle) as H. cbn [negb] in H. rewrite H, firstn_map. reflexivity.
  - rewrite (firstn_all2 (alternate c false ts)) by (rewrite alternate_length; lia). rewrite csteps_app.
    destruct (sync_alternate c ts true s) as (o & u & Ho & Hou). cbn [negb] in Ho. rewrite Hodd in Ho. rewrite Ho.
    assert (Eb : cfg_bidi c = true) by (destruct (cfg_bidi c); [reflexivity|cbn [length] in Hn; lia]). rewrite Eb in *.
    pose proof (sync_cutout c u (n - length ts) ltac:(cbn [length SpecTx.cutout] in Hn; lia)) as Hcut.
    destruct (csteps (sync c false u) _) as [o2 s2]. cbn [fst] in *. subst o2.
    rewrite firstn_all2 by (cbn [length]; rewrite map_length; lia). exact Hou.
Qed.

Lemma aligned_full : forall c p s t, config_ok c -> packet_ok (bytes p) ->
  csteps (sync c true s) (tl (on_track c p) ++ [(t, [first_half c])]) =
  (map m16 (concat (emission c s p)), sync c true (t + (if cfg_bidi c then 477 else 1))).
Proof.
  intros c p s t Hc Hp. destruct (halves_cons c p Hc Hp) as (t0 & ts & Eh & Hodd).
  unfold on_track, emission in *. fold (halves c p) in *. rewrite Eh in *. cbn [alternate List.app tl negb] in *.
  pose proof (no_durations 5 (if cfg_bidi c then 5 else 0)) as Hz. rewrite firstn_all2 in Hz by (destruct (cfg_bidi c); cbn; lia).
  rewrite concat_app, Hz, app_nil_r, concat_singles.
  rewrite <- app_assoc, csteps_app.
  destruct (sync_alternate c ts true s) as (o & u & Ho & Hou). cbn [negb] in Ho. rewrite Hodd in Ho. rewrite Ho.
  destruct (cfg_bidi c).
  - rewrite sync_after. rewrite <- Hou. reflexivity.
  - cbn [List.app]. pose proof (sync_step c false u t) as H. cbn [negb] in H. rewrite H. rewrite <- Hou. reflexivity.
Qed.

Fixpoint emissions (c : tx_config) (s : Z) (ps : list (option (list Z))) : list (list (list Z)) :=
  match ps with
  | [] => []
  | p :: r => emission c s p :: emissions c (hd 0 (halves c (hd None r)) + (if cfg_bidi c then 477 else 1)) r
  end.

Lemma on_track_cons : forall c p, config_ok c -> packet_ok (bytes p) ->
  on_track c p = (hd 0 (halves c p), [first_half c]) :: tl (on_track c p) /\
  length (emission c 0 p) = length (on_track c p).
Proof.
  intros c p Hc Hp. destruct (halves_cons c p Hc Hp) as (t0 & ts & Eh & Hodd).
  unfold on_track, emission. fold (halves c p). rewrite Eh. split; [reflexivity|].
  cbn [tl]. rewrite !app_length, map_length, alternate_length, repeat_length. cbn [length]. rewrite map_length.
  destruct (cfg_bidi c); reflexivity.
Qed.

Lemma aligned : forall c ps p s n, config_ok c -> Forall (fun p => packet_ok (bytes p)) (p :: ps) ->
  (n <= length (tl (flat_map (on_track c) (p :: ps))))%nat ->
  fst (csteps (sync c true s) (firstn n (tl (flat_map (on_track c) (p :: ps))))) =
  map m16 (concat (firstn n (concat (emissions c s (p :: ps))))).
Proof.
  intros c ps. induction ps as [|q ps IH]; intros p s n Hc Hps Hn; inversion Hps as [|? ? Hp Hps']; subst.
  - cbn [flat_map emissions concat] in *. rewrite !app_nil_r in *. apply aligned_head; assumption.
  - cbn [flat_map emissions concat hd] in *. fold (emissions c) in *.
    destruct (on_track_cons c p Hc Hp) as [Ep Elp].
    assert (El : length (emission c s p) = length (on_track c p)).
    { rewrite <- Elp. unfold emission. rewrite !app_length, !map_length. reflexivity. }
    assert (Et : forall x, tl (on_track c p ++ x) = tl (on_track c p) ++ x) by (intros x; rewrite Ep; reflexivity).
    assert (Elt : length (on_track c p) = S (length (tl (on_track c p)))) by (rewrite Ep at 1; reflexivity).
    rewrite Et in *. rewrite app_length in Hn. rewrite (firstn_app n (tl (on_track c p))), (firstn_app n (emission c s p)), El.
    destruct (Nat.le_gt_cases n (length (tl (on_track c p)))) as [Hle|Hgt].
    + replace (n - length (tl (on_track c p)))%nat with 0%nat by lia. replace (n - length (on_track c p))%nat with 0%nat by lia.
      rewrite !firstn_O, !app_nil_r. apply aligned_head; assumption.
    + rewrite (firstn_all2 (tl (on_track c p))) by lia. rewrite (firstn_all2 (emission c s p)) by lia.
      inversion Hps' as [|? ? Hq Hps'']; subst. destruct (on_track_cons c q Hc Hq) as [Eq _].
      replace (n - length (tl (on_track c p)))%nat with (S (n - length (on_track c p))) by lia. set (m := (n - length (on_track c p))%nat).
      specialize (IH q (hd 0 (halves c q) + (if cfg_bidi c then 477 else 1)) m Hc Hps').
      cbn [flat_map] in IH. rewrite Eq in IH, Hn |- *. cbn [List.app tl firstn length] in IH, Hn |- *.
      match goal with |- context [tl (on_track c p) ++ ?x :: ?r] =>
        replace (tl (on_track c p) ++ x :: r) with ((tl (on_track c p) ++ [x]) ++ r) by (rewrite <- app_assoc; reflexivity) end.
      rewrite csteps_app, aligned_full by assumption. specialize (IH ltac:(lia)).
      cbv beta iota. rewrite (surjective_pairing (csteps (sync c true _) _)). cbn [fst]. rewrite IH, concat_app, map_app. reflexivity.
Qed.

(** Everything captured of the beginning of a track *)
Lemma captured_track : forall c ps p since n, config_ok c -> Forall (fun p => packet_ok (bytes p)) (p :: ps) ->
  (n <= length (flat_map (on_track c) (p :: ps)))%nat -> exists g s, (length g <= 1)%nat /\
  captured since (firstn n (flat_map (on_track c) (p :: ps))) = map m16 (g ++ concat (firstn (n - 1) (concat (emissions c s (p :: ps))))).
Proof.
  intros c ps p since n Hc Hps Hn. unfold captured. rewrite csteps_capture.
  destruct n as [|n]; [exists [], 0; split; [cbn; lia|reflexivity]|].
  inversion Hps as [|? ? Hp _]; subst. destruct (on_track_cons c p Hc Hp) as [Ep _].
  set (t0 := hd 0 (halves c p)) in *.
  assert (E : flat_map (on_track c) (p :: ps) = (t0, [first_half c]) :: tl (flat_map (on_track c) (p :: ps))).
  { cbn [flat_map]. rewrite Ep. reflexivity. }
  rewrite E in Hn |- *. cbn [firstn length] in *. 
  change ((t0, [first_half c]) :: firstn n (tl (flat_map (on_track c) (p :: ps))))
    with ([(t0, [first_half c])] ++ firstn n (tl (flat_map (on_track c) (p :: ps)))).
  rewrite csteps_app. replace (S n - 1)%nat with n by lia.
  match goal with |- context [csteps ?S [(t0, ?e)]] =>
    assert (K : exists g s, (length g <= 1)%nat /\ csteps S [(t0, e)] = (map m16 g, sync c true s)) end.
  { unfold sync, first_half. destruct (cfg_invert c).
    - exists [since], (t0 + 1). split; [cbn; lia|reflexivity].
    - exists [], (since + (t0 + 1)). split; [cbn; lia|reflexivity]. }
  destruct K as (g & s & Hg & K). exists g, s. split; [exact Hg|]. rewrite K.
  rewrite map_app, <- (aligned c ps p s n Hc Hps) by lia.
  destruct (csteps (sync c true s) _). reflexivity.
Qed.
