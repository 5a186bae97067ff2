(** Everything a command station accepts gets onto the track *)
From Verif Require Import Prelude Address ZBits SpecCodec SpecTx TxProofs Tx RxState Rx CodecProofs CodecProofs2 SpecRx
  RxBitProofs RxBitProofs2 RxBitProofs3 RxBitProofs4 RxBitProofs5 SpecLayout2 LayoutProofs6 LayoutProofs8 ReplProofs SpecStation.

(** ** Splitting a history at a call *)

Lemma split_history : forall h a b, flat_map call_of h = a ++ b ->
  exists h1 h2, h = h1 ++ h2 /\ flat_map call_of h1 = a /\ flat_map call_of h2 = b.
Proof.
  induction h as [|e h IH]; intros a b H.
  - cbn [flat_map] in H. symmetry in H. apply app_eq_nil in H. destruct H as [-> ->]. exists [], []. auto.
  - destruct a as [|o a]; [exists [], (e :: h); auto|]. cbn [flat_map] in H.
    assert (Hc : call_of e = [] \/ exists o', call_of e = [o']) by (destruct e; cbn; eauto).
    destruct Hc as [Hc|(o' & Hc)]; rewrite Hc in H; cbn [List.app] in H.
    + destruct (IH (o :: a) b H) as (h1 & h2 & -> & H1 & H2). exists (e :: h1), h2. cbn [flat_map]. rewrite Hc. auto.
    + injection H as -> H. destruct (IH a b H) as (h1 & h2 & -> & H1 & H2). exists (e :: h1), h2.
      cbn [flat_map]. rewrite Hc, H1. auto.
Qed.

Lemma history_app : forall c a b, history_ok c (a ++ b) -> history_ok c a.
Proof. intros c a b H h1 e h2 ->. apply (H h1 e (h2 ++ b)). rewrite <- app_assoc. reflexivity. Qed.

(** ** Lengths *)

Definition space (c : tx_config) (ps : list (option (list Z))) : nat := length (flat_map (on_track c) ps).

Lemma space_app : forall c a b, space c (a ++ b) = (space c a + space c b)%nat.
Proof. intros c a b. unfold space. rewrite flat_map_app, app_length. reflexivity. Qed.

Lemma alternate_length : forall c ts f, length (alternate c f ts) = length ts.
Proof. intros c. induction ts as [|t ts IH]; intros f; [reflexivity|]. cbn [alternate length]. rewrite IH. reflexivity. Qed.

Definition fits_in (p : option (list Z)) : Prop := match p with Some bs => (length bs <= 18)%nat | None => True end.

Lemma halves_length : forall d1 d0 n bs, length (half_bits d1 d0 (track_bits n bs)) = (2 * (n + 9 * length bs + 1))%nat.
Proof.
  intros d1 d0 n bs.
  assert (H : forall l, length (half_bits d1 d0 l) = (2 * length l)%nat).
  { induction l as [|x l IH]; [reflexivity|]. cbn [half_bits flat_map] in *. rewrite app_length.
    unfold half_bits in IH. rewrite IH. cbn [length]. lia. }
  rewrite H. unfold track_bits. rewrite !app_length, repeat_length. cbn [length].
  assert (K : length (flat_map (fun b => false :: msb_first b) bs) = (9 * length bs)%nat).
  { induction bs as [|b bs IH]; [reflexivity|]. cbn [flat_map]. rewrite app_length, IH.
    change (length (false :: msb_first b)) with 9%nat. cbn [length]. lia. }
  lia.
Qed.

Lemma on_track_length : forall c p, config_ok c -> fits_in p -> (length (on_track c p) <= 391)%nat.
Proof.
  intros c p Hc Hp. unfold on_track. rewrite app_length, alternate_length.
  assert (H5 : (length (if cfg_bidi c then SpecTx.cutout c else []) <= 5)%nat) by (destruct (cfg_bidi c); cbn; lia).
  destruct p as [bs|].
  - unfold packet_halves. rewrite halves_length. cbn [fits_in] in Hp. destruct Hc as [Hc _]. lia.
  - unfold idle_halves. rewrite halves_length. cbn [length]. lia.
Qed.

Lemma space_le : forall c ps, config_ok c -> Forall fits_in ps -> (space c ps <= 391 * length ps)%nat.
Proof.
  intros c ps Hc H. induction H as [|p ps Hp H IH]; [cbn; lia|].
  change (p :: ps) with ([p] ++ ps). rewrite space_app, app_length.
  assert (space c [p] <= 391)%nat.
  { unfold space. cbn [flat_map]. rewrite app_nil_r. apply on_track_length; assumption. }
  cbn [length]. lia.
Qed.

(** ** All but the last packet are on the track *)

Lemma behind : forall c h, history_ok c h ->
  exists ps p, None :: started h = ps ++ [p] /\ (space c ps <= length (ticks h) <= space c (ps ++ [p]))%nat.
Proof.
  intros c h. induction h as [|e h IH] using rev_ind; intros H.
  - exists [], None. split; [reflexivity|]. cbn. lia.
  - destruct (IH (history_app _ _ _ H)) as (ps & p & Hs & Hle). destruct (H h e [] eq_refl) as (ws & _ & Hj).
    assert (Ht : length (track c h) = space c (ps ++ [p])) by (unfold track, space; rewrite Hs; reflexivity).
    rewrite started_app, ticks_app, app_length.
    destruct e as [bs|bs|q|x].
    + exists ps, p. cbn [started ticks flat_map List.app length]. rewrite app_nil_r. split; [exact Hs|]. lia.
    + exists ps, p. cbn [started ticks flat_map List.app length]. rewrite app_nil_r. split; [exact Hs|]. lia.
    + exists (ps ++ [p]), q. cbn [started ticks flat_map List.app length]. split.
      * rewrite app_comm_cons, Hs. reflexivity.
      * assert (Hq : ticks h = track c h) by (destruct q; apply Hj).
        rewrite Hq, Ht, !space_app. lia.
    + exists ps, p. cbn [started ticks flat_map List.app length]. rewrite app_nil_r. split; [exact Hs|].
      destruct Hj as (rest & Hr). apply (f_equal (@length _)) in Hr. rewrite app_length in Hr. cbn [length] in Hr. lia.
Qed.

Lemma started_fits : forall c h, history_ok c h -> Forall (fun bs => (length bs <= 18)%nat) (queued h) ->
  Forall fits_in (None :: started h).
Proof.
  intros c h Hh Hq. constructor; [exact Logic.I|]. apply Forall_forall. intros [bs|] Hp; [|exact Logic.I].
  rewrite Forall_forall in Hq. apply Hq. exact (started_queued c h bs Hh Hp).
Qed.

(** Enough intervals mean enough packets *)
Lemma starts : forall c h1 h2 j, config_ok c -> history_ok c (h1 ++ h2) ->
  Forall (fun bs => (length bs <= 18)%nat) (queued (h1 ++ h2)) ->
  (391 * j < length (ticks h2))%nat -> (j <= length (started h2))%nat.
Proof.
  intros c h1 h2 j Hc Hh Hq Hj.
  destruct (behind c h1 (history_app _ _ _ Hh)) as (ps & p & Hs & Hle).
  destruct (behind c (h1 ++ h2) Hh) as (ps2 & p2 & Hs2 & Hle2).
  pose proof (started_fits _ _ Hh Hq) as Hf. rewrite started_app in Hs2, Hf.
  rewrite app_comm_cons in Hs2, Hf. rewrite Hs in Hs2, Hf. rewrite <- Hs2, !space_app in Hle2. rewrite space_app in Hle.
  rewrite !Forall_app in Hf. destruct Hf as ((_ & Hf1) & Hf2).
  pose proof (space_le c [p] Hc Hf1) as K1. pose proof (space_le c (started h2) Hc Hf2) as K2.
  rewrite ticks_app, app_length in Hle2. cbn [length] in K1. lia.
Qed.

(** ** Nothing new: the waiting packets, then idle packets *)

Lemma waiting_three : forall c h, history_ok c h -> exists ws, waiting h ws /\ (length ws <= 3)%nat.
Proof.
  intros c h. induction h as [|e h IH] using rev_ind; intros H; [exists []; split; [reflexivity|cbn; lia]|].
  destruct (IH (history_app _ _ _ H)) as (ws & Hw & Hl).
  destruct (H h e [] eq_refl) as (ws' & Hw' & Hj).
  assert (ws' = ws) as -> by (unfold waiting in Hw, Hw'; rewrite Hw in Hw'; apply app_inv_head in Hw'; congruence).
  unfold waiting. rewrite queued_app, sent_app, Hw.
  destruct e as [bs|bs|[bs|]|x].
  - exists (ws ++ [bs]). cbn [queued sent flat_map List.app]. rewrite app_nil_r, app_assoc, app_length. cbn [length]. split; [reflexivity|lia].
  - exists ws. cbn [queued sent flat_map List.app]. rewrite !app_nil_r. auto.
  - destruct Hj as [Hj _]. destruct ws as [|w ws]; [discriminate|]. assert (w = bs) by (cbn in Hj; congruence). subst w.
    exists ws. cbn [queued sent flat_map List.app]. rewrite app_nil_r, <- app_assoc. cbn [length] in Hl. split; [reflexivity|lia].
  - exists ws. cbn [queued sent flat_map List.app]. rewrite !app_nil_r. auto.
  - exists ws. cbn [queued sent flat_map List.app]. rewrite !app_nil_r. auto.
Qed.

Lemma skipn_step : forall (A : Type) (l : list A) k, skipn (S k) l = tl (skipn k l).
Proof. intros A. induction l as [|x l IH]; intros [|k]; try reflexivity. cbn [skipn] in *. destruct k; [reflexivity|]. apply IH. Qed.

Lemma drain : forall c h1 ws h2, history_ok c (h1 ++ h2) -> waiting h1 ws -> queued h2 = [] ->
  let k := length (started h2) in
  started h2 = map Some (firstn k ws) ++ repeat None (k - length ws) /\ waiting (h1 ++ h2) (skipn k ws).
Proof.
  intros c h1 ws h2. induction h2 as [|e h2 IH] using rev_ind; intros H Hw Hq k; subst k.
  - cbn [started flat_map length firstn map repeat skipn Nat.sub List.app]. rewrite app_nil_r. auto.
  - rewrite app_assoc in H. rewrite queued_app in Hq. apply app_eq_nil in Hq. destruct Hq as [Hq He].
    destruct (IH (history_app _ _ _ H) Hw Hq) as [Hst Hwa]. clear IH.
    destruct (H (h1 ++ h2) e [] eq_refl) as (ws' & Hw' & Hj).
    assert (ws' = skipn (length (started h2)) ws) as ->.
    { unfold waiting in Hwa, Hw'. rewrite Hwa in Hw'. apply app_inv_head in Hw'. congruence. }
    set (k := length (started h2)) in *. rewrite app_assoc.
    assert (Hpass : queued [e] = [] -> sent [e] = [] -> started [e] = [] ->
      started (h2 ++ [e]) = map Some (firstn (length (started (h2 ++ [e]))) ws) ++ repeat None (length (started (h2 ++ [e])) - length ws) /\
      waiting ((h1 ++ h2) ++ [e]) (skipn (length (started (h2 ++ [e]))) ws)).
    { intros E1 E2 E3. unfold waiting. rewrite queued_app, sent_app, started_app, E1, E2, E3, !app_nil_r. fold k. auto. }
    destruct e as [bs|bs|[bs|]|x]; try (apply Hpass; reflexivity).
    + discriminate He.
    + destruct Hj as [Hj _]. unfold waiting. rewrite queued_app, sent_app, started_app.
      cbn [queued sent started flat_map List.app]. rewrite app_length. cbn [length]. fold k. rewrite Nat.add_1_r.
      assert (Hlt : (k < length ws)%nat).
      { destruct (Nat.le_gt_cases (length ws) k) as [Hl|Hl]; [|exact Hl]. rewrite skipn_all2 in Hj by exact Hl. discriminate Hj. }
      split.
      * rewrite Hst. replace (k - length ws)%nat with 0%nat by lia. replace (S k - length ws)%nat with 0%nat by lia.
        cbn [repeat]. rewrite !app_nil_r.
        assert (Hs : firstn (S k) ws = firstn k ws ++ [bs]).
        { clear - Hj. clearbody k. revert k Hj. induction ws as [|w ws IH]; intros [|k] Hj; cbn [skipn hd_error] in Hj; try discriminate Hj.
          - cbn [firstn List.app]. congruence.
          - change (w :: firstn (S k) ws = w :: (firstn k ws ++ [bs])). f_equal. apply IH. exact Hj. }
        rewrite Hs, map_app. reflexivity.
      * rewrite app_nil_r, Hwa, <- app_assoc. f_equal. rewrite skipn_step.
        destruct (skipn k ws) as [|w r]; [discriminate Hj|]. cbn [hd_error] in Hj. cbn [tl List.app]. congruence.
    + destruct Hj as [Hj _]. unfold waiting. rewrite queued_app, sent_app, started_app.
      cbn [queued sent started flat_map List.app]. rewrite app_length. cbn [length]. fold k. rewrite Nat.add_1_r.
      assert (Hle : (length ws <= k)%nat).
      { destruct (Nat.le_gt_cases (length ws) k) as [Hl|Hl]; [exact Hl|]. apply (f_equal (@length _)) in Hj.
        rewrite skipn_length in Hj. cbn [length] in Hj. lia. }
      split.
      * rewrite Hst. rewrite !firstn_all2 by lia. rewrite <- app_assoc. f_equal.
        replace (S k - length ws)%nat with (k - length ws + 1)%nat by lia. rewrite repeat_app. reflexivity.
      * rewrite !app_nil_r, Hwa, skipn_step, Hj. reflexivity.
Qed.

(** ** What is finished *)

Lemma finished_all : forall c ps p n, (space c ps <= n)%nat -> exists r, finished c (ps ++ [p]) n = map bytes ps ++ r.
Proof.
  intros c. induction ps as [|q ps IH]; intros p n Hn; [eexists; reflexivity|].
  change (q :: ps) with ([q] ++ ps) in Hn. rewrite space_app in Hn.
  assert (Hq : space c [q] = (length (match q with None => idle_halves | Some bs => packet_halves c bs end)
                              + (if cfg_bidi c then 5 else 0))%nat).
  { unfold space. cbn [flat_map]. rewrite app_nil_r. unfold on_track. rewrite app_length, alternate_length.
    destruct (cfg_bidi c); reflexivity. }
  cbn [List.app finished map]. cbv zeta.
  match goal with |- context [(?a <? ?b)%nat] => destruct (Nat.ltb_spec a b) as [Hlt|_]; [lia|] end.
  match goal with |- context [finished c (ps ++ [p]) ?k] => destruct (IH p k ltac:(lia)) as (r & Hr) end.
  exists r. rewrite Hr. destruct q; reflexivity.
Qed.

(** After the last packet was given to the station, [n] more intervals: everything is on
    the track and so is an idle packet behind it *)
Lemma all_finished : forall c h1 ws h2, config_ok c -> history_ok c (h1 ++ h2) ->
  Forall (fun bs => (length bs <= 18)%nat) (queued (h1 ++ h2)) ->
  waiting h1 ws -> queued h2 = [] -> (391 * (length ws + 2) < length (ticks h2))%nat ->
  exists fs r, finished c (None :: started (h1 ++ h2)) (length (ticks (h1 ++ h2))) = fs ++ [0xFF; 0; 0xFF] :: r /\
    (length r <= 1)%nat /\ Forall (fun p => p = [0xFF; 0; 0xFF]) r /\
    filter not_idle fs = filter not_idle (queued (h1 ++ h2)).
Proof.
  intros c h1 ws h2 Hc Hh Hq Hw Hq2 Ht.
  pose proof (starts c h1 h2 _ Hc Hh Hq Ht) as Hk. destruct (drain c h1 ws h2 Hh Hw Hq2) as [Hst Hwa].
  set (k := length (started h2)) in *. rewrite firstn_all2 in Hst by lia. rewrite skipn_all2 in Hwa by lia.
  destruct (behind c (h1 ++ h2) Hh) as (ps & p & Hs & Hle).
  set (A := None :: started h1 ++ map Some ws ++ repeat None (k - length ws - 2)).
  assert (HA : None :: started (h1 ++ h2) = (A ++ [None]) ++ [None]).
  { unfold A. rewrite started_app, Hst. cbn [List.app]. f_equal. rewrite <- !app_assoc. f_equal. f_equal.
    assert (He : (k - length ws)%nat = (k - length ws - 2 + 2)%nat) by lia. rewrite He at 1. rewrite repeat_app. reflexivity. }
  rewrite HA in Hs. apply app_inj_tail in Hs. destruct Hs as [<- <-].
  destruct (finished_all c (A ++ [None]) None (length (ticks (h1 ++ h2))) ltac:(lia)) as (r & Hr).
  destruct (finished_prefix c ((A ++ [None]) ++ [None]) (length (ticks (h1 ++ h2)))) as (r2 & Hr2).
  exists (map bytes A), r. rewrite HA, Hr. split; [rewrite map_app, <- app_assoc; reflexivity|].
  rewrite Hr, (map_app bytes (A ++ [None]) [None]), <- app_assoc in Hr2. apply app_inv_head in Hr2. split; [|split].
  - apply (f_equal (@length _)) in Hr2. rewrite app_length in Hr2. cbn [map length] in Hr2. lia.
  - destruct r as [|x r]; [constructor|]. cbn [List.app map bytes] in Hr2. injection Hr2 as -> Hr2.
    apply app_eq_nil in Hr2. destruct Hr2 as [-> _]. constructor; [reflexivity|constructor].
  - unfold waiting in Hwa. rewrite app_nil_r in Hwa. rewrite Hwa, <- started_sent.
    assert (Hf : filter not_idle (map bytes (None :: started (h1 ++ h2))) = filter not_idle (map bytes A)).
    { rewrite HA, !map_app, !filter_app. cbn [map bytes filter]. change (not_idle [0xFF; 0; 0xFF]) with false.
      cbn iota. rewrite !app_nil_r. reflexivity. }
    rewrite <- Hf. reflexivity.
Qed.

(** ** Packets given at leisure *)

Definition leisurely (g : group) : Prop := (length (fst g) <= 3)%nat /\ (391 * length (fst g) < snd g)%nat.

Lemma accept : forall c h1 ws h2 ps, history_ok c (h1 ++ h2) -> waiting h1 ws -> flat_map call_of h2 = map TBytes ps ->
  (length ws + length ps <= 3)%nat ->
  queued h2 = ps /\ exists ws', waiting (h1 ++ h2) ws' /\ (length ws' <= length ws + length ps)%nat.
Proof.
  intros c h1 ws h2. induction h2 as [|e h2 IH] using rev_ind; intros ps H Hw Hc Hl.
  - destruct ps; [|discriminate Hc]. split; [reflexivity|]. exists ws. rewrite app_nil_r. split; [exact Hw|lia].
  - rewrite app_assoc in H. rewrite flat_map_app in Hc.
    assert (Hstep : forall ps', flat_map call_of h2 = map TBytes ps' -> (length ps' <= length ps)%nat ->
      queued h2 = ps' /\ exists ws', waiting (h1 ++ h2) ws' /\ (length ws' <= length ws + length ps')%nat).
    { intros ps' H' Hl'. apply IH; [exact (history_app _ _ _ H)|exact Hw|exact H'|lia]. }
    destruct (H (h1 ++ h2) e [] eq_refl) as (w & Hww & Hj). rewrite app_assoc.
    assert (Hsame : forall (ps' ws' : list (list Z)), waiting (h1 ++ h2) ws' -> (length ws' <= length ws + length ps')%nat ->
      waiting (h1 ++ h2) w /\ (length w <= length ws + length ps')%nat).
    { intros ps' ws' Hv Hv2. split; [exact Hww|].
      assert (w = ws') as -> by (unfold waiting in Hww, Hv; rewrite Hv in Hww; apply app_inv_head in Hww; congruence). exact Hv2. }
    destruct e as [bs|bs|[bs|]|x]; cbn [flat_map call_of List.app] in Hc; rewrite ?app_nil_r in Hc.
    + destruct ps as [|b ps _] using rev_ind; [destruct (flat_map call_of h2); discriminate Hc|].
      rewrite map_app in Hc. cbn [map] in Hc. apply app_inj_tail in Hc. destruct Hc as [Hc Hb].
      rewrite app_length in *. cbn [length] in *. destruct (Hstep ps Hc ltac:(lia)) as [Hq (ws' & Hv & Hv2)].
      destruct (Hsame ps ws' Hv Hv2) as [_ Hv3]. split.
      * rewrite queued_app, Hq. cbn [queued flat_map List.app]. congruence.
      * exists (w ++ [bs]). unfold waiting in *. rewrite queued_app, sent_app, Hww. cbn [queued sent flat_map List.app].
        rewrite app_nil_r, app_assoc, app_length. cbn [length]. split; [reflexivity|lia].
    + exfalso. destruct ps as [|b ps _] using rev_ind; [destruct (flat_map call_of h2); discriminate Hc|].
      rewrite map_app in Hc. cbn [map] in Hc. apply app_inj_tail in Hc. destruct Hc as [Hc Hb].
      rewrite app_length in *. cbn [length] in *. destruct (Hstep ps Hc ltac:(lia)) as [Hq (ws' & Hv & Hv2)].
      destruct (Hsame ps ws' Hv Hv2) as [_ Hv3]. lia.
    + destruct (Hstep ps Hc ltac:(lia)) as [Hq (ws' & Hv & Hv2)]. destruct (Hsame ps ws' Hv Hv2) as [_ Hv3].
      destruct Hj as [Hj _]. destruct w as [|b w]; [discriminate Hj|]. assert (b = bs) by (cbn in Hj; congruence). subst b.
      split; [rewrite queued_app, Hq; apply app_nil_r|]. exists w. unfold waiting in *.
      rewrite queued_app, sent_app, Hww. cbn [queued sent flat_map List.app]. rewrite app_nil_r, <- app_assoc.
      cbn [length] in Hv3. split; [reflexivity|lia].
    + destruct (Hstep ps Hc ltac:(lia)) as [Hq (ws' & Hv & Hv2)]. destruct (Hsame ps ws' Hv Hv2) as [_ Hv3].
      split; [rewrite queued_app, Hq; apply app_nil_r|]. exists w. unfold waiting in *.
      rewrite queued_app, sent_app, Hww. cbn [queued sent flat_map List.app]. rewrite !app_nil_r. auto.
    + exfalso. destruct ps as [|b ps _] using rev_ind; [destruct (flat_map call_of h2); discriminate Hc|].
      rewrite map_app in Hc. cbn [map] in Hc. apply app_inj_tail in Hc. destruct Hc as [_ Hb]. discriminate Hb.
Qed.

Lemma only_ticks : forall h k, flat_map call_of h = repeat TTransmit k -> queued h = [] /\ length (ticks h) = k.
Proof.
  induction h as [|e h IH]; intros k H; cbn [flat_map] in H.
  - destruct k; [split; reflexivity|discriminate H].
  - change (e :: h) with ([e] ++ h). rewrite queued_app, ticks_app, app_length.
    destruct e as [bs|bs|p|x]; cbn [call_of List.app] in H.
    + destruct k; discriminate H.
    + destruct k; discriminate H.
    + destruct (IH k H) as [-> ->]. split; reflexivity.
    + destruct k as [|k]; [discriminate H|]. cbn [repeat] in H. injection H as H. destruct (IH k H) as [-> ->]. split; reflexivity.
Qed.

Lemma groups_accepted : forall c gs h, config_ok c -> history_ok c h -> Forall leisurely gs ->
  Forall (fun g => Forall (fun bs => (length bs <= 18)%nat) (fst g)) gs ->
  flat_map call_of h = flat_map calls gs -> queued h = concat (map fst gs) /\ waiting h [].
Proof.
  intros c gs. induction gs as [|g gs IH] using rev_ind; intros h Hc Hh Hl H18 H.
  - cbn [flat_map] in H. destruct (only_ticks h 0 H) as [Hq Ht]. split; [exact Hq|].
    destruct (waiting_all c h Hh) as (ws & Hws). rewrite Hq in Hws. symmetry in Hws. apply app_eq_nil in Hws.
    unfold waiting. rewrite Hq, (proj1 Hws). reflexivity.
  - rewrite flat_map_app in H. cbn [flat_map] in H. rewrite app_nil_r in H.
    apply split_history in H. destruct H as (h1 & h2 & -> & H1 & H2).
    unfold calls in H2. apply split_history in H2. destruct H2 as (h3 & h4 & -> & H3 & H4).
    apply Forall_app in Hl. destruct Hl as [Hl Hg]. apply Forall_inv in Hg. destruct Hg as [Hg1 Hg2].
    apply Forall_app in H18. destruct H18 as [H18 Hg3]. apply Forall_inv in Hg3.
    destruct (IH h1 Hc (history_app _ _ _ Hh) Hl H18 H1) as [Hq Hw].
    assert (Hh3 : history_ok c (h1 ++ h3)) by (rewrite app_assoc in Hh; exact (history_app _ _ _ Hh)).
    destruct (accept c h1 [] h3 (fst g) Hh3 Hw H3 Hg1) as [Hq3 (ws & Hw3 & Hl3)]. cbn [length Nat.add] in Hl3.
    destruct (only_ticks h4 (snd g) H4) as [Hq4 Ht4].
    assert (Hqa : queued (h1 ++ h3 ++ h4) = concat (map fst (gs ++ [g]))).
    { rewrite !queued_app, Hq, Hq3, Hq4, app_nil_r, map_app, concat_app. cbn [map concat]. rewrite app_nil_r. reflexivity. }
    split; [exact Hqa|]. rewrite app_assoc in *.
    assert (Hfit : Forall (fun bs => (length bs <= 18)%nat) (queued ((h1 ++ h3) ++ h4))).
    { rewrite Hqa, map_app, concat_app. cbn [map concat]. rewrite app_nil_r. apply Forall_app. split; [|exact Hg3].
      clear - H18. induction H18 as [|x l Hx H IHl]; [constructor|]. cbn [map concat]. apply Forall_app. auto. }
    assert (Hst : (length ws <= length (started h4))%nat).
    { apply (starts c (h1 ++ h3) h4 (length ws) Hc Hh Hfit). rewrite Ht4. lia. }
    destruct (drain c (h1 ++ h3) ws h4 Hh Hw3 Hq4) as [_ Hd]. rewrite skipn_all2 in Hd by lia. exact Hd.
Qed.
