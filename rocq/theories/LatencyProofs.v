(** How long a packet waits in the command station *)
From Verif Require Import Prelude SpecCodec SpecTx TxProofs Tx LayoutProofs8 ReplProofs StationProofs3 SpecLatency.

Lemma lasting_app : forall a b, lasting (a ++ b) = lasting a + lasting b.
Proof. induction a as [|[t ev] a IH]; intros b; [reflexivity|]. unfold lasting in *. cbn [List.app map fst fold_right]. rewrite IH. lia. Qed.

Lemma lasting_alternate : forall c ts f, lasting (alternate c f ts) = fold_right Z.add 0 ts.
Proof. intros c. induction ts as [|t ts IH]; intros f; [reflexivity|]. unfold lasting in *. cbn [alternate map fst fold_right]. rewrite IH. reflexivity. Qed.

Lemma sum_app : forall a b, fold_right Z.add 0 (a ++ b) = fold_right Z.add 0 a + fold_right Z.add 0 b.
Proof. induction a as [|x a IH]; intros b; [reflexivity|]. cbn [List.app fold_right]. rewrite IH. lia. Qed.

Lemma sum_half_bits : forall d1 d0 bits, d1 <= d0 -> fold_right Z.add 0 (half_bits d1 d0 bits) <= 2 * d0 * Z.of_nat (length bits).
Proof.
  intros d1 d0 bits H. induction bits as [|x bits IH]; [cbn; lia|]. unfold half_bits in *. cbn [flat_map]. rewrite sum_app. cbn [fold_right length].
  destruct x; lia.
Qed.

Lemma half_bits_app : forall d1 d0 a b, half_bits d1 d0 (a ++ b) = half_bits d1 d0 a ++ half_bits d1 d0 b.
Proof. intros. apply flat_map_app. Qed.

Lemma sum_ones : forall d1 d0 n, fold_right Z.add 0 (half_bits d1 d0 (repeat true n)) = 2 * d1 * Z.of_nat n.
Proof. intros d1 d0. induction n as [|n IH]; [cbn; lia|]. change (half_bits d1 d0 (repeat true (S n))) with ([d1; d1] ++ half_bits d1 d0 (repeat true n)).
  rewrite sum_app, IH. cbn [fold_right]. lia. Qed.

Lemma sum_packet : forall d1 d0 n bs, d1 <= d0 ->
  fold_right Z.add 0 (half_bits d1 d0 (track_bits n bs)) <= 2 * (d1 * (Z.of_nat n + 1) + d0 * (9 * Z.of_nat (length bs))).
Proof.
  intros d1 d0 n bs H. unfold track_bits. rewrite !half_bits_app, !sum_app, sum_ones.
  assert (K : length (flat_map (fun b => false :: msb_first b) bs) = (9 * length bs)%nat).
  { clear. induction bs as [|b bs IH]; [reflexivity|]. cbn [flat_map]. rewrite app_length, IH.
    change (length (false :: msb_first b)) with 9%nat. cbn [length]. lia. }
  pose proof (sum_half_bits d1 d0 (flat_map (fun b => false :: msb_first b) bs) H) as K2. rewrite K in K2.
  cbn [half_bits flat_map List.app fold_right]. lia.
Qed.

Lemma lasting_on_track : forall c p, config_ok c -> fits_in p -> lasting (on_track c p) <= longest c.
Proof.
  intros c p (H1 & H2 & H3) Hp. unfold on_track. rewrite lasting_app, lasting_alternate.
  assert (Hcut : lasting (if cfg_bidi c then cutout c else []) = if cfg_bidi c then 471 else 0) by (destruct (cfg_bidi c); reflexivity).
  rewrite Hcut. unfold longest. destruct p as [bs|].
  - cbn [fits_in] in Hp. unfold packet_halves. pose proof (sum_packet (bit1_duration c) (bit0_duration c) (Z.to_nat (num_preamble c)) bs ltac:(lia)) as K.
    rewrite Z2Nat.id in K by lia. nia.
  - change (fold_right Z.add 0 idle_halves) with 6144. nia.
Qed.

Definition timed (c : tx_config) (ps : list (option (list Z))) : Z := lasting (flat_map (on_track c) ps).
Lemma timed_app : forall c a b, timed c (a ++ b) = timed c a + timed c b.
Proof. intros. unfold timed. rewrite flat_map_app. apply lasting_app. Qed.
Lemma timed_le : forall c ps, config_ok c -> Forall fits_in ps -> timed c ps <= longest c * Z.of_nat (length ps).
Proof.
  intros c ps Hc H. induction H as [|p ps Hp H IH]; [cbn; lia|]. change (p :: ps) with ([p] ++ ps). rewrite timed_app, app_length.
  pose proof (lasting_on_track c p Hc Hp). unfold timed at 1. cbn [flat_map length]. rewrite app_nil_r. lia.
Qed.
Lemma longest_pos : forall c, config_ok c -> 0 < longest c.
Proof. intros c (H1 & H2 & H3). unfold longest. destruct (cfg_bidi c); nia. Qed.

Lemma lasting_pos : forall l, Forall (fun x => 0 < fst x) l -> 0 <= lasting l /\ (lasting l = 0 -> l = []).
Proof.
  intros l H. induction H as [|[t ev] l Ht H IH]; [split; [cbn; lia|reflexivity]|]. unfold lasting in *. cbn [map fst fold_right] in *.
  split; [lia|]. intro. lia.
Qed.

Lemma on_track_pos : forall c p, config_ok c -> Forall (fun x => 0 < fst x) (on_track c p).
Proof.
  intros c p (H1 & H2 & H3). unfold on_track. apply Forall_app. split.
  - assert (Ha : forall ts f, Forall (fun t => 0 < t) ts -> Forall (fun x => 0 < fst x) (alternate c f ts)).
    { induction ts as [|t ts IH]; intros f H; [constructor|]. inversion H; subst. cbn [alternate]. constructor; [assumption|apply IH; assumption]. }
    apply Ha. apply Forall_forall. intros t Ht. destruct p as [bs|]; unfold packet_halves, idle_halves, half_bits in Ht; apply in_flat_map in Ht;
      destruct Ht as (x & _ & Ht); cbn in Ht; destruct x; lia.
  - destruct (cfg_bidi c); [|constructor]. unfold cutout. repeat constructor.
Qed.

Lemma tracks_pos : forall c ps, config_ok c -> Forall (fun x => 0 < fst x) (flat_map (on_track c) ps).
Proof. intros c ps Hc. induction ps as [|p ps IH]; [constructor|]. cbn [flat_map]. apply Forall_app. split; [apply on_track_pos; exact Hc|exact IH]. Qed.

(** A prefix that lasts as long as another one is as long *)
Lemma longer : forall (a b l r : list (Z * list tx_event)), a ++ b = l ++ r -> Forall (fun x => 0 < fst x) (a ++ b) ->
  lasting a <= lasting l -> (length a <= length l)%nat.
Proof.
  induction a as [|x a IH]; intros b l r H Hp Hl; [cbn; lia|]. destruct l as [|y l].
  - inversion Hp as [|? ? Hx Hr]; subst. apply Forall_app in Hr. destruct Hr as [Hr _]. destruct (lasting_pos a Hr) as [H0 _].
    unfold lasting in *. cbn [map fold_right] in *. lia.
  - injection H as <- H. inversion Hp; subst. cbn [length]. apply le_n_S. apply (IH b l r H); [assumption|].
    unfold lasting in *. cbn [map fold_right] in Hl. lia.
Qed.

(** ** Packets leave in order *)

Lemma firstn_more : forall (A : Type) n (l : list A) w r, skipn n l = w :: r -> firstn (n + 1) l = firstn n l ++ [w].
Proof.
  induction n as [|n IH]; intros l w r H; [cbn in H; subst l; reflexivity|]. destruct l as [|x l]; [discriminate H|]. cbn in H |- *.
  rewrite (IH l w r H). reflexivity.
Qed.

Lemma leave_in_order : forall c h1 ws h2, history_ok c (h1 ++ h2) -> waiting h1 ws ->
  let k := length (started h2) in
  firstn (length ws) (started h2) = map Some (firstn k ws) /\
  ((k <= length ws)%nat -> waiting (h1 ++ h2) (skipn k ws ++ queued h2)).
Proof.
  intros c h1 ws h2. induction h2 as [|e h2 IH] using rev_ind; intros H Hw k; subst k.
  - cbn [started flat_map length firstn map skipn queued]. rewrite firstn_nil, !app_nil_r. split; [reflexivity|intros _; exact Hw].
  - rewrite app_assoc in H. destruct (IH (history_app _ _ _ H) Hw) as [Hst Hwa]. clear IH.
    destruct (H (h1 ++ h2) e [] eq_refl) as (ws' & Hw' & Hj).
    assert (Hws : (length (started h2) <= length ws)%nat -> ws' = skipn (length (started h2)) ws ++ queued h2).
    { intro Hle. specialize (Hwa Hle). unfold waiting in Hwa, Hw'. rewrite Hwa in Hw'. apply app_inv_head in Hw'. congruence. }
    rewrite started_app, app_assoc. unfold waiting. rewrite !(queued_app (h1 ++ h2)), !(sent_app (h1 ++ h2)), (queued_app h2).
    destruct e as [bs|bs|q|x].
    + cbn [started queued sent flat_map List.app]. rewrite !app_nil_r. split; [exact Hst|]. intro Hle. specialize (Hwa Hle). unfold waiting in Hwa.
      rewrite Hwa, <- !app_assoc. reflexivity.
    + cbn [started queued sent flat_map List.app]. rewrite !app_nil_r. split; [exact Hst|]. intro Hle. exact (Hwa Hle).
    + cbn [started flat_map List.app]. rewrite app_nil_r, app_length. cbn [length].
      destruct (Nat.lt_ge_cases (length (started h2)) (length ws)) as [Hlt|Hge].
      * specialize (Hws ltac:(lia)).
        destruct (skipn (length (started h2)) ws) as [|w r] eqn:Es.
        { apply (f_equal (@length _)) in Es. rewrite skipn_length in Es. cbn in Es. lia. }
        assert (Hq : q = Some w).
        { destruct q as [bs|]; [destruct Hj as [Hj _]; rewrite Hws in Hj; cbn in Hj; congruence|]. destruct Hj as [Hj _]. rewrite Hws in Hj. discriminate Hj. }
        subst q. split.
        -- assert (Ef : firstn (length (started h2) + 1) ws = firstn (length (started h2)) ws ++ [w]) by (apply firstn_more with r; exact Es).
           rewrite Ef, map_app. rewrite firstn_all2 in Hst by lia. rewrite firstn_all2 by (rewrite app_length; cbn [length]; lia). rewrite Hst at 1. reflexivity.
        -- intros _. rewrite Nat.add_1_r, skipn_step, Es. cbn [tl queued sent flat_map List.app].
           specialize (Hwa ltac:(lia)). unfold waiting in Hwa. rewrite ?Es in Hwa. rewrite Hwa, ?app_nil_r, <- ?app_assoc. reflexivity.
      * split; [|lia]. rewrite firstn_app. replace (length ws - length (started h2))%nat with 0%nat by lia. rewrite firstn_O, app_nil_r, Hst.
        rewrite !firstn_all2 by lia. reflexivity.
    + cbn [started queued sent flat_map List.app]. rewrite !app_nil_r. split; [exact Hst|]. intro Hle. exact (Hwa Hle).
Qed.

(** ** Delivery *)

Definition real (p : option (list Z)) : list (list Z) := match p with Some bs => [bs] | None => [] end.

Lemma sent_real : forall h, sent h = flat_map real (started h).
Proof. induction h as [|e h IH]; [reflexivity|]. unfold sent, started in *. cbn [flat_map]. rewrite flat_map_app, IH. destruct e as [| |[]|]; reflexivity. Qed.

Lemma delivered_app : forall c a b n, (space c a <= n)%nat -> delivered c (a ++ b) n = flat_map real a ++ delivered c b (n - space c a).
Proof.
  intros c. induction a as [|p a IH]; intros b n H.
  - cbn [List.app flat_map]. unfold space. cbn. rewrite Nat.sub_0_r. reflexivity.
  - cbn [List.app delivered flat_map]. unfold space in H. cbn [flat_map] in H. rewrite app_length in H. fold (space c a) in H.
    replace (n <? length (on_track c p))%nat with false by (symmetry; apply Nat.ltb_ge; lia).
    rewrite IH by lia. rewrite <- app_assoc. unfold real at 1. f_equal. f_equal. unfold space. cbn [flat_map]. rewrite app_length. f_equal. lia.
Qed.

Lemma behind_timed : forall c h, history_ok c h ->
  exists ps p, None :: started h = ps ++ [p] /\ exists r, ticks h = flat_map (on_track c) ps ++ r.
Proof.
  intros c h Hh. destruct (behind c h Hh) as (ps & p & Hs & Hle). exists ps, p. split; [exact Hs|].
  destruct (ticks_prefix c h Hh) as (rest & Hr). unfold track in Hr. rewrite Hs, flat_map_app in Hr.
  exists (skipn (space c ps) (ticks h)). rewrite <- (firstn_skipn (space c ps) (ticks h)) at 1. f_equal.
  apply (f_equal (firstn (space c ps))) in Hr. rewrite firstn_app in Hr. replace (space c ps - length (ticks h))%nat with 0%nat in Hr by lia.
  rewrite firstn_O, app_nil_r in Hr. rewrite Hr, firstn_app. unfold space at 2. rewrite Nat.sub_diag, firstn_O, app_nil_r. apply firstn_all2. unfold space. lia.
Qed.

Lemma real_some : forall l, flat_map real (map Some l) = l.
Proof. induction l as [|x l IH]; [reflexivity|]. cbn [map flat_map real List.app]. rewrite IH. reflexivity. Qed.

Section Latency.
  Context (c : tx_config) (h1 : list entry) (bs : list Z) (h2 : list entry) (ws : list (list Z)) (Hc : config_ok c)
    (Hh : history_ok c (h1 ++ Queued bs :: h2))
    (Hq : Forall (fun p => (length p <= 18)%nat) (queued (h1 ++ Queued bs :: h2)))
    (Hw : waiting h1 ws)
    (Ht : timed c (None :: started h1) - lasting (ticks h1) + (Z.of_nat (length ws) + 1) * longest c <= lasting (ticks h2)).
  Let h := h1 ++ Queued bs :: h2.

  Lemma placed : exists ps p r q rest, None :: started h = (ps ++ [p]) ++ map Some (ws ++ [bs]) ++ q /\
    None :: started h1 = ps ++ [p] /\ ticks h1 = flat_map (on_track c) ps ++ r /\
    ticks h ++ rest = flat_map (on_track c) (None :: started h) /\
    (space c ((ps ++ [p]) ++ map Some (ws ++ [bs])) <= length (ticks h))%nat /\
    timed c [p] <= longest c /\ timed c (map Some (ws ++ [bs])) <= (Z.of_nat (length ws) + 1) * longest c.
  Proof using Hc Hh Hq Hw Ht.
    destruct (behind_timed c h1 (history_app _ _ _ Hh)) as (ps & p & Hs & r & Hr).
    assert (Hf := started_fits c h Hh Hq).
    assert (Est : None :: started h = (ps ++ [p]) ++ started h2).
    { unfold h. rewrite started_app, app_comm_cons, Hs. reflexivity. }
    destruct (ticks_prefix c h Hh) as (rest & Hrest). unfold track in Hrest.
    assert (Hpos := tracks_pos c ((ps ++ [p]) ++ started h2) Hc). rewrite <- Est, <- Hrest in Hpos.
    rewrite Est in Hf. rewrite !Forall_app in Hf. destruct Hf as ((Hf1 & Hf2) & Hf3).
    assert (Etk : ticks h = ticks h1 ++ ticks h2) by (unfold h; rewrite ticks_app; reflexivity).
    assert (Hlast : timed c (ps ++ [p]) + (Z.of_nat (length ws) + 1) * longest c <= lasting (ticks h)).
    { rewrite Etk, lasting_app. pose proof Ht as K. rewrite Hs in K. lia. }
    rewrite timed_app in Hlast.
    assert (Hp1 : timed c [p] <= longest c) by (pose proof (timed_le c [p] Hc Hf2) as K; cbn [length] in K; lia).
    assert (Hlong := longest_pos c Hc).
    assert (Hl : (length ws + 1 <= length (started h2))%nat).
    { destruct (Nat.lt_ge_cases (length (started h2)) (length ws + 1)) as [Hlt|Hge]; [exfalso|exact Hge].
      assert (K : lasting (ticks h) <= timed c ((ps ++ [p]) ++ started h2)).
      { unfold timed. rewrite <- Est, <- Hrest, lasting_app. apply Forall_app in Hpos. destruct Hpos as [_ Hpos]. destruct (lasting_pos rest Hpos). lia. }
      rewrite !timed_app in K. pose proof (timed_le c (started h2) Hc Hf3). nia. }
    assert (Hw2 : waiting (h1 ++ [Queued bs]) (ws ++ [bs])).
    { unfold waiting in *. rewrite queued_app, sent_app, Hw. cbn [queued sent flat_map List.app]. rewrite app_nil_r, <- app_assoc. reflexivity. }
    assert (Hh2 : history_ok c ((h1 ++ [Queued bs]) ++ h2)) by (rewrite <- app_assoc; exact Hh).
    destruct (leave_in_order c (h1 ++ [Queued bs]) (ws ++ [bs]) h2 Hh2 Hw2) as [Hord _].
    rewrite (firstn_all2 (ws ++ [bs])) in Hord by (rewrite app_length; cbn [length]; lia).
    assert (Esplit : started h2 = map Some (ws ++ [bs]) ++ skipn (length (ws ++ [bs])) (started h2)) by (rewrite <- Hord; symmetry; apply firstn_skipn).
    set (q := skipn (length (ws ++ [bs])) (started h2)) in *. clearbody q.
    assert (Htw : timed c (map Some (ws ++ [bs])) <= (Z.of_nat (length ws) + 1) * longest c).
    { rewrite Esplit in Hf3. apply Forall_app in Hf3. destruct Hf3 as [Hf3 _]. pose proof (timed_le c _ Hc Hf3) as K.
      rewrite map_length, app_length in K. cbn [length] in K. lia. }
    exists ps, p, r, q, rest. rewrite Esplit in Est. split; [exact Est|]. split; [exact Hs|]. split; [exact Hr|]. split; [exact Hrest|]. split; [|auto].
    unfold space. apply (longer _ (flat_map (on_track c) q) (ticks h) rest).
    - rewrite <- flat_map_app, <- app_assoc, <- Est. symmetry. exact Hrest.
    - rewrite <- flat_map_app, <- app_assoc, <- Est, <- Hrest. exact Hpos.
    - change (timed c ((ps ++ [p]) ++ map Some (ws ++ [bs])) <= lasting (ticks h)). rewrite !timed_app. lia.
  Qed.

  Lemma latency_order : nth_error (delivered c (None :: started h) (length (ticks h))) (length (queued h1)) = Some bs.
  Proof using Hc Hh Hq Hw Ht.
    destruct placed as (ps & p & r & q & rest & Est & Hs & _ & _ & Hsp & _).
    rewrite Est, app_assoc, (delivered_app c ((ps ++ [p]) ++ map Some (ws ++ [bs]))) by exact Hsp.
    rewrite flat_map_app, <- Hs. change (flat_map real (None :: started h1)) with (flat_map real (started h1)). rewrite <- sent_real.
    rewrite real_some. unfold waiting in Hw. rewrite <- !app_assoc, app_assoc, <- Hw, nth_error_app2, Nat.sub_diag by lia. reflexivity.
  Qed.

  Lemma latency_left : exists a b, ticks h2 = a ++ on_track c (Some bs) ++ b /\
    lasting (a ++ on_track c (Some bs)) <= timed c (None :: started h1) - lasting (ticks h1) + (Z.of_nat (length ws) + 1) * longest c.
  Proof using Hc Hh Hq Hw Ht.
    destruct placed as (ps & p & r & q & rest & Est & Hs & Hr & Hrest & Hsp & Hp1 & Htw).
    destruct (ticks_prefix c h1 (history_app _ _ _ Hh)) as (rest1 & Hrest1). unfold track in Hrest1. rewrite Hs, flat_map_app, Hr in Hrest1.
    rewrite <- app_assoc in Hrest1. apply app_inv_head in Hrest1. cbn [flat_map] in Hrest1. rewrite app_nil_r in Hrest1.
    assert (Etk : ticks h = ticks h1 ++ ticks h2) by (unfold h; rewrite ticks_app; reflexivity).
    rewrite Etk, Est, Hr, !flat_map_app in Hrest. cbn [flat_map] in Hrest. rewrite app_nil_r, <- Hrest1 in Hrest.
    rewrite <- !app_assoc in Hrest. apply app_inv_head in Hrest. apply app_inv_head in Hrest.
    rewrite map_app, flat_map_app in Hrest. cbn [map flat_map] in Hrest. rewrite app_nil_r, <- !app_assoc in Hrest.
    set (a := rest1 ++ flat_map (on_track c) (map Some ws)).
    assert (Hlen : (length (a ++ on_track c (Some bs)) <= length (ticks h2))%nat).
    { rewrite Etk, Hr, !app_length in Hsp. unfold space in Hsp. rewrite map_app, !flat_map_app, !app_length in Hsp. cbn [map flat_map] in Hsp.
      rewrite !app_nil_r, <- Hrest1, !app_length in Hsp. unfold a. rewrite !app_length. lia. }
    exists a, (skipn (length (a ++ on_track c (Some bs))) (ticks h2)). split.
    - rewrite app_assoc. rewrite <- (firstn_skipn (length (a ++ on_track c (Some bs))) (ticks h2)) at 1. f_equal.
      apply (f_equal (firstn (length (a ++ on_track c (Some bs))))) in Hrest. rewrite firstn_app in Hrest.
      replace (length (a ++ on_track c (Some bs)) - length (ticks h2))%nat with 0%nat in Hrest by lia. rewrite firstn_O, app_nil_r in Hrest.
      rewrite Hrest, app_assoc. fold a. rewrite app_assoc, firstn_app, firstn_all, Nat.sub_diag, firstn_O, app_nil_r. reflexivity.
    - unfold timed in *. rewrite map_app, flat_map_app, lasting_app in Htw. cbn [map flat_map] in Htw, Hp1. rewrite app_nil_r in Htw, Hp1.
      rewrite <- Hrest1, lasting_app in Hp1. unfold a. rewrite Hs, Hr, flat_map_app, !lasting_app. cbn [flat_map]. rewrite app_nil_r, <- Hrest1, lasting_app. lia.
  Qed.
End Latency.

Lemma rest_le : forall c h, config_ok c -> history_ok c h -> Forall (fun p => (length p <= 18)%nat) (queued h) ->
  timed c (None :: started h) - lasting (ticks h) <= longest c.
Proof.
  intros c h Hc Hh Hq. destruct (behind_timed c h Hh) as (ps & p & Hs & r & Hr). assert (Hf := started_fits c h Hh Hq).
  rewrite Hs in Hf. apply Forall_app in Hf. destruct Hf as [_ Hf]. pose proof (timed_le c [p] Hc Hf) as K. cbn [length] in K.
  rewrite Hs, Hr, timed_app, lasting_app. change (lasting (flat_map (on_track c) ps)) with (timed c ps).
  assert (Hn : 0 <= lasting r); [|lia]. apply lasting_pos. pose proof (tracks_pos c (None :: started h) Hc) as K2.
  destruct (ticks_prefix c h Hh) as (rest & Hrest). unfold track in Hrest. rewrite <- Hrest, Hr in K2. rewrite !Forall_app in K2. apply K2.
Qed.

Lemma latency_place : forall c h1 bs h2 ws, config_ok c -> history_ok c (h1 ++ Queued bs :: h2) ->
  Forall (fun p => (length p <= 18)%nat) (queued (h1 ++ Queued bs :: h2)) -> waiting h1 ws ->
  (Z.of_nat (length ws) + 2) * longest c <= lasting (ticks h2) ->
  (exists a b, ticks h2 = a ++ on_track c (Some bs) ++ b /\ lasting (a ++ on_track c (Some bs)) <= (Z.of_nat (length ws) + 2) * longest c) /\
  nth_error (delivered c (None :: started (h1 ++ Queued bs :: h2)) (length (ticks (h1 ++ Queued bs :: h2)))) (length (queued h1)) = Some bs.
Proof.
  intros c h1 bs h2 ws Hc Hh Hq Hw Ht.
  assert (Hr : timed c (None :: started h1) - lasting (ticks h1) <= longest c).
  { apply rest_le; [exact Hc|exact (history_app _ _ _ Hh)|]. rewrite queued_app in Hq. apply Forall_app in Hq. apply Hq. }
  split; [|apply (latency_order c h1 bs h2 ws); try assumption; lia].
  destruct (latency_left c h1 bs h2 ws Hc Hh Hq Hw) as (a & b & Hab & Hl); [lia|]. exists a, b. split; [exact Hab|lia].
Qed.

Lemma latency_four : forall c h1 bs h2, config_ok c -> history_ok c (h1 ++ Queued bs :: h2) ->
  Forall (fun p => (length p <= 18)%nat) (queued (h1 ++ Queued bs :: h2)) -> 4 * longest c <= lasting (ticks h2) ->
  exists a b, ticks h2 = a ++ on_track c (Some bs) ++ b /\ lasting (a ++ on_track c (Some bs)) <= 4 * longest c.
Proof.
  intros c h1 bs h2 Hc Hh Hq Ht. destruct (Hh h1 (Queued bs) h2 eq_refl) as (ws & Hw & Hl). pose proof (longest_pos c Hc).
  destruct (latency_place c h1 bs h2 ws Hc Hh Hq Hw) as [(a & b & Hab & Hla) _]; [nia|]. exists a, b. split; [exact Hab|nia].
Qed.
