(** Packets handed over one packet time apart *)
From Verif Require Import Prelude SpecCodec SpecTx TxProofs Tx LayoutProofs8 ReplProofs StationProofs3 SpecLatency LatencyProofs.

(** Packets handed over *)
Definition handed (e : entry) : list (list Z) := match e with Queued bs | Refused bs => [bs] | _ => [] end.
Definition spaced (t : Z) (h : list entry) : Prop := forall a x b y r,
  h = a ++ x :: b ++ y :: r -> handed x <> [] -> flat_map handed b = [] -> handed y <> [] -> t <= lasting (ticks b).

Section Spaced.
  Context (c : tx_config) (Hc : config_ok c).

  (** What is left of the packet on the track *)
  Definition remains (h : list entry) : Z := timed c (None :: started h) - lasting (ticks h).

  Lemma remains_pos : forall h, history_ok c h -> 0 <= remains h.
  Proof.
    intros h Hh. destruct (ticks_prefix c h Hh) as (rest & Hr). unfold track in Hr. unfold remains, timed. rewrite <- Hr, lasting_app.
    pose proof (tracks_pos c (None :: started h) Hc) as K. rewrite <- Hr in K. apply Forall_app in K. destruct K as [_ K].
    destruct (lasting_pos rest K). lia.
  Qed.

  Lemma remains_snoc : forall h e, remains (h ++ [e]) = remains h + timed c (started [e]) - lasting (ticks [e]).
  Proof. intros h e. unfold remains. rewrite started_app, ticks_app, app_comm_cons, timed_app, lasting_app. lia. Qed.

  Lemma waiting_fun : forall h a b, waiting h a -> waiting h b -> a = b.
  Proof. unfold waiting. intros h a b H1 H2. rewrite H1 in H2. apply app_inv_head in H2. exact H2. Qed.

  Lemma work : forall h1 ws h2 x, history_ok c (h1 ++ h2) -> Forall fits_in (started (h1 ++ h2)) -> waiting h1 ws ->
    flat_map handed h2 = [] -> remains h1 + longest c * Z.of_nat (length ws) <= x ->
    exists ws', waiting (h1 ++ h2) ws' /\
      (remains (h1 ++ h2) + longest c * Z.of_nat (length ws') <= x - lasting (ticks h2) \/ (ws' = [] /\ remains (h1 ++ h2) <= longest c)).
  Proof using Hc.
    intros h1 ws h2 x. induction h2 as [|e h2 IH] using rev_ind; intros Hh Hf Hw Hn Hx.
    - exists ws. rewrite app_nil_r. split; [exact Hw|]. left. cbn. lia.
    - rewrite flat_map_app in Hn. apply app_eq_nil in Hn. destruct Hn as [Hn Hne]. cbn [flat_map] in Hne. rewrite app_nil_r in Hne.
      rewrite app_assoc in *. rewrite started_app in Hf. apply Forall_app in Hf. destruct Hf as [Hf Hfe].
      destruct (IH (history_app _ _ _ Hh) Hf Hw Hn Hx) as (ws' & Hw' & Hor). clear IH.
      destruct (Hh (h1 ++ h2) e [] eq_refl) as (ws2 & Hw2 & Hj). assert (ws2 = ws') as -> by (eapply waiting_fun; eassumption).
      rewrite remains_snoc, ticks_app, lasting_app. destruct e as [b|b|p|y]; [discriminate Hne|discriminate Hne| |].
      + assert (H0 : remains (h1 ++ h2) = 0).
        { unfold remains. assert (E : ticks (h1 ++ h2) = track c (h1 ++ h2)) by (destruct p; apply Hj). rewrite E. unfold track, timed. lia. }
        assert (Hp : timed c [p] <= longest c) by (pose proof (timed_le c [p] Hc Hfe) as K; cbn [length] in K; lia).
        change (started [Started p]) with [p]. change (lasting (ticks [Started p])) with 0.
        destruct p as [bs|].
        * destruct Hj as [Hj _]. destruct ws' as [|w r]; [discriminate Hj|]. injection Hj as ->. exists r. split.
          -- unfold waiting in *. rewrite queued_app, sent_app, Hw'. cbn [queued sent flat_map List.app]. rewrite ?app_nil_r, <- app_assoc. reflexivity.
          -- destruct Hor as [Hor|[Hor _]]; [left|discriminate Hor]. cbn [length] in Hor. lia.
        * destruct Hj as [-> _]. exists []. split.
          -- unfold waiting in *. rewrite queued_app, sent_app, Hw'. cbn [queued sent flat_map List.app]. rewrite ?app_nil_r. reflexivity.
          -- right. split; [reflexivity|lia].
      + exists ws'. split.
        * unfold waiting in *. rewrite queued_app, sent_app, Hw'. cbn [queued sent flat_map List.app]. rewrite ?app_nil_r. reflexivity.
        * change (started [Tick y]) with (@nil (option (list Z))). change (timed c []) with 0.
          assert (Hy : 0 <= lasting (ticks [Tick y])).
          { destruct (ticks_prefix c _ Hh) as (rest & Hr). unfold track in Hr. pose proof (tracks_pos c (None :: started ((h1 ++ h2) ++ [Tick y])) Hc) as K.
            rewrite <- Hr, ticks_app in K. rewrite !Forall_app in K. destruct K as [[_ K] _]. apply lasting_pos. exact K. }
          destruct Hor as [Hor|[-> Hor]]; [left; lia|right; split; [reflexivity|lia]].
  Qed.

  Lemma handed_last : forall h, flat_map handed h = [] \/ exists a e b, h = a ++ e :: b /\ handed e <> [] /\ flat_map handed b = [].
  Proof.
    induction h as [|e h IH] using rev_ind; [left; reflexivity|]. destruct (handed e) eqn:Ee.
    - destruct IH as [IH|(a & x & b & -> & Hx & Hb)].
      + left. rewrite flat_map_app, IH. cbn [flat_map]. rewrite Ee. reflexivity.
      + right. exists a, x, (b ++ [e]). rewrite <- app_assoc. split; [reflexivity|]. split; [exact Hx|]. rewrite flat_map_app, Hb. cbn [flat_map]. rewrite Ee. reflexivity.
    - right. exists h, e, []. split; [reflexivity|]. split; [congruence|reflexivity].
  Qed.

  Lemma remains0 : remains [] <= longest c.
  Proof using Hc. unfold remains. cbn [started ticks flat_map]. pose proof (timed_le c [None] Hc) as K. cbn [length] in K. specialize (K ltac:(repeat constructor)). change (lasting []) with 0. lia. Qed.

  (** Whenever a packet is handed over a packet time of work or less is left *)
  Lemma little_work : forall h e, history_ok c (h ++ [e]) -> Forall (fun p => (length p <= 18)%nat) (queued (h ++ [e])) ->
    spaced (longest c) (h ++ [e]) -> handed e <> [] ->
    exists ws, waiting h ws /\ remains h + longest c * Z.of_nat (length ws) <= longest c.
  Proof using Hc.
    intros h. remember (length h) as n eqn:En. revert h En. induction n as [n IH] using lt_wf_ind; intros h En e Hh Hq Hsp He.
    assert (Hf : Forall fits_in (started h)).
    { rewrite queued_app in Hq. apply Forall_app in Hq. destruct Hq as [Hq _]. pose proof (started_fits c h (history_app _ _ _ Hh) Hq) as K.
      inversion K; assumption. }
    destruct (handed_last h) as [Hn|(a & x & b & -> & Hx & Hb)].
    - destruct (work [] [] h (longest c)) as (ws & Hw & Hor); [exact (history_app _ _ _ Hh)|exact Hf|reflexivity|exact Hn|pose proof remains0; cbn [length]; lia|].
      cbn [List.app] in *. exists ws. split; [exact Hw|]. destruct Hor as [Hor|[-> Hor]]; [|cbn [length]; lia].
      assert (0 <= lasting (ticks h)); [|lia]. destruct (ticks_prefix c _ (history_app _ _ _ Hh)) as (rest & Hr).
      pose proof (tracks_pos c (None :: started h) Hc) as K. unfold track in Hr. rewrite <- Hr in K. apply Forall_app in K. apply lasting_pos. apply K.
    - assert (Hh1 : history_ok c (a ++ [x])).
      { apply (history_app c _ (b ++ [e])). rewrite <- !app_assoc in *. exact Hh. }
      assert (Hq1 : Forall (fun p => (length p <= 18)%nat) (queued (a ++ [x]))).
      { replace ((a ++ x :: b) ++ [e]) with ((a ++ [x]) ++ b ++ [e]) in Hq by (rewrite <- !app_assoc; reflexivity). rewrite queued_app in Hq. apply Forall_app in Hq. apply Hq. }
      assert (Hsp1 : spaced (longest c) (a ++ [x])).
      { intros a' x' b' y' r' Heq. apply (Hsp a' x' b' y' (r' ++ b ++ [e])).
        transitivity ((a ++ [x]) ++ b ++ [e]); [rewrite <- !app_assoc; reflexivity|]. rewrite Heq, <- !app_assoc. cbn [List.app]. rewrite <- !app_assoc. reflexivity. }
      destruct (IH (length a)) with (h := a) (e := x) as (ws & Hw & Hrem); [subst n; rewrite app_length; cbn [length]; lia|reflexivity|assumption..|].
      destruct (Hh1 a x [] eq_refl) as (ws' & Hw' & Hj). assert (ws' = ws) as -> by (eapply waiting_fun; eassumption).
      pose proof (remains_pos a (history_app _ _ _ Hh1)) as Hrp. pose proof (longest_pos c Hc) as Hl.
      destruct x as [bs|bs|p|y]; [|exfalso; nia|contradiction Hx; reflexivity|contradiction Hx; reflexivity].
      replace (a ++ Queued bs :: b) with ((a ++ [Queued bs]) ++ b) in * by (rewrite <- app_assoc; reflexivity).
      destruct (work (a ++ [Queued bs]) (ws ++ [bs]) b (2 * longest c)) as (ws2 & Hw2 & Hor).
      + exact (history_app _ _ _ Hh).
      + exact Hf.
      + unfold waiting in *. rewrite queued_app, sent_app, Hw. cbn [queued sent flat_map List.app]. rewrite ?app_nil_r, <- app_assoc. reflexivity.
      + exact Hb.
      + rewrite remains_snoc, app_length. change (timed c (started [Queued bs])) with 0. change (lasting (ticks [Queued bs])) with 0. cbn [length]. rewrite Nat2Z.inj_add. change (Z.of_nat 1) with 1. rewrite Z.mul_add_distr_l. lia.
      + assert (Hlb : longest c <= lasting (ticks b)) by (apply (Hsp a (Queued bs) b e []); [rewrite <- !app_assoc; reflexivity|discriminate|exact Hb|exact He]).
        exists ws2. split; [exact Hw2|]. destruct Hor as [Hor|[-> Hor]]; [lia|cbn [length]; lia].
  Qed.
End Spaced.

Lemma prefix_spaced : forall t a b, spaced t (a ++ b) -> spaced t a.
Proof. intros t a b H a' x b' y r ->. apply (H a' x b' y (r ++ b)). rewrite <- !app_assoc. cbn [List.app]. rewrite <- !app_assoc. reflexivity. Qed.

Lemma spaced_accepted : forall c h, config_ok c -> history_ok c h -> Forall (fun p => (length p <= 18)%nat) (queued h) -> spaced (longest c) h ->
  forall bs, ~ In (Refused bs) h.
Proof.
  intros c h Hc Hh Hq Hsp bs Hin. apply in_split in Hin. destruct Hin as (a & b & ->).
  replace (a ++ Refused bs :: b) with ((a ++ [Refused bs]) ++ b) in * by (rewrite <- app_assoc; reflexivity).
  rewrite queued_app in Hq. apply Forall_app in Hq. destruct Hq as [Hq _].
  destruct (little_work c Hc a (Refused bs) (history_app _ _ _ Hh) Hq (prefix_spaced _ _ _ Hsp)) as (ws & Hw & Hl); [discriminate|].
  destruct ((history_app _ _ _ Hh) a (Refused bs) [] eq_refl) as (ws' & Hw' & Hj). assert (ws' = ws) as -> by (eapply waiting_fun; eassumption).
  pose proof (remains_pos c Hc a (history_app _ _ _ (history_app _ _ _ Hh))). pose proof (longest_pos c Hc). cbn in Hj. nia.
Qed.

Lemma spaced_place : forall c h1 bs h2, config_ok c -> history_ok c (h1 ++ Queued bs :: h2) ->
  Forall (fun p => (length p <= 18)%nat) (queued (h1 ++ Queued bs :: h2)) -> spaced (longest c) (h1 ++ Queued bs :: h2) ->
  2 * longest c <= lasting (ticks h2) ->
  exists a b, ticks h2 = a ++ on_track c (Some bs) ++ b /\ lasting (a ++ on_track c (Some bs)) <= 2 * longest c.
Proof.
  intros c h1 bs h2 Hc Hh Hq Hsp Ht.
  assert (Hh1 : history_ok c (h1 ++ [Queued bs])) by (apply (history_app c _ h2); rewrite <- app_assoc; exact Hh).
  destruct (little_work c Hc h1 (Queued bs) Hh1) as (ws & Hw & Hl).
  { rewrite queued_app in *. cbn [queued flat_map List.app] in *. apply Forall_app in Hq. destruct Hq as [Hq1 Hq2]. inversion Hq2; subst. apply Forall_app. auto. }
  { apply (prefix_spaced _ _ h2). rewrite <- app_assoc. exact Hsp. }
  { discriminate. }
  pose proof (longest_pos c Hc) as Hpos. pose proof (remains_pos c Hc h1 (history_app _ _ _ Hh1)) as Hrp.
  assert (Hone : Z.of_nat (length ws) <= 1) by nia.
  destruct (latency_left c h1 bs h2 ws Hc Hh Hq Hw) as (a & b & Hab & Hla); [unfold remains in Hl; nia|].
  exists a, b. split; [exact Hab|]. unfold remains in Hl. nia.
Qed.

(** ** Runs *)

Definition pairs (h : list entry) : list (tx_op * tx_out) := flat_map (fun e => combine (call_of e) (result_of e)) h.

Lemma pairs_combine : forall h, combine (flat_map call_of h) (flat_map result_of h) = pairs h.
Proof. induction h as [|e h IH]; [reflexivity|]. unfold pairs in *. cbn [flat_map]. rewrite <- IH. destruct e as [| | |[]]; reflexivity. Qed.

Lemma pairs_app : forall a b, pairs (a ++ b) = pairs a ++ pairs b.
Proof. intros. apply flat_map_app. Qed.

Lemma apart_gap : forall t b y r now, apart t now (pairs (b ++ y :: r)) = true -> flat_map handed b = [] -> handed y <> [] -> t <= now + lasting (ticks b).
Proof.
  intros t b y r. induction b as [|e b IH]; intros now H Hb Hy.
  - change (lasting (ticks [])) with 0. cbn [List.app] in H. destruct y as [q|q|q|q]; try (contradiction Hy; reflexivity);
      unfold pairs in H; cbn [flat_map call_of result_of combine List.app apart] in H; apply andb_true_iff in H; destruct H as [H _]; apply Z.leb_le in H; lia.
  - cbn [flat_map] in Hb. apply app_eq_nil in Hb. destruct Hb as [He Hb]. destruct e as [q|q|q|[d ev]]; [discriminate He|discriminate He| |].
    + exact (IH now H Hb Hy).
    + assert (H' : apart t (now + d) (pairs (b ++ y :: r)) = true) by exact H. specialize (IH _ H' Hb Hy).
      rewrite ticks_cons. rewrite lasting_app. change (lasting (ticks [Tick (d, ev)])) with (d + 0). lia.
Qed.

Lemma apart_tail : forall t a now r, apart t now (pairs (a ++ r)) = true -> exists now', apart t now' (pairs r) = true.
Proof.
  intros t a. induction a as [|e a IH]; intros now r H; [exists now; exact H|]. destruct e as [q|q|q|[d ev]].
  1,2: change (apart t now ((TBytes q, (None, [])) :: pairs (a ++ r)) = true) in H; cbn [apart] in H; apply andb_true_iff in H; destruct H as [_ H]; exact (IH _ _ H).
  - exact (IH _ _ H).
  - exact (IH (now + d) r H).
Qed.

Lemma apart_spaced : forall t now h, apart t now (pairs h) = true -> spaced t h.
Proof.
  intros t now h H a x b y r -> Hx Hb Hy. destruct (apart_tail _ _ _ _ H) as (now' & H').
  assert (H2 : apart t 0 (pairs (b ++ y :: r)) = true).
  { destruct x as [q|q|q|q]; try (contradiction Hx; reflexivity);
      change (apart t now' ((TBytes q, (None, [])) :: pairs (b ++ y :: r)) = true) in H'; cbn [apart] in H'; apply andb_true_iff in H'; apply H'. }
  pose proof (apart_gap t b y r 0 H2 Hb Hy). lia.
Qed.

Lemma queued_plain : forall h, Forall plain_op (flat_map call_of h) -> Forall (fun p => (length p <= 18)%nat) (queued h).
Proof.
  intros h H. rewrite Forall_forall in *. intros p Hp. unfold queued in Hp. apply in_flat_map in Hp. destruct Hp as (e & He & Hp).
  destruct e as [q| | |]; try contradiction Hp. destruct Hp as [<-|[]]. apply (H (TBytes q)). apply in_flat_map. exists (Queued q). split; [exact He|left; reflexivity].
Qed.

Lemma call_lengths : forall h, length (flat_map result_of h) = length (flat_map call_of h).
Proof. induction h as [|e h IH]; [reflexivity|]. cbn [flat_map]. rewrite !app_length, IH. destruct e as [| | |[]]; reflexivity. Qed.

(** The history of a run cut at a packet handed over *)
Lemma run_cut : forall c ops1 bs ops2 xs1 x xs2 tx, config_ok c -> Forall plain_op (ops1 ++ TBytes bs :: ops2) ->
  tx_run (TInit c :: ops1 ++ TBytes bs :: ops2) (tx_init_state 4) = Ok ((None, []) :: xs1 ++ x :: xs2, tx) -> length xs1 = length ops1 ->
  exists h1 e h2, history_ok c (h1 ++ e :: h2) /\ (e = Queued bs \/ e = Refused bs) /\ flat_map call_of h1 = ops1 /\ flat_map result_of h1 = xs1 /\
    flat_map call_of h2 = ops2 /\ flat_map result_of h2 = xs2 /\ x = (None, []) /\
    flat_map call_of (h1 ++ e :: h2) = ops1 ++ TBytes bs :: ops2 /\ flat_map result_of (h1 ++ e :: h2) = xs1 ++ x :: xs2.
Proof.
  intros c ops1 bs ops2 xs1 x xs2 tx Hc Hops Hrun Hlen. destruct (tx_history c _ Hc Hops) as (xs & s & h & Htx & Hcall & Hres & Hh).
  rewrite Hrun in Htx. injection Htx as <- <-. pose proof Hcall as Hcall'. apply split_history in Hcall'. destruct Hcall' as (h1 & h2 & -> & H1 & H2).
  change (TBytes bs :: ops2) with ([TBytes bs] ++ ops2) in H2.
  assert (Hs : exists h0 e h3, h2 = h0 ++ e :: h3 /\ flat_map call_of h0 = [] /\ (e = Queued bs \/ e = Refused bs) /\ flat_map call_of h3 = ops2).
  { clear - H2. induction h2 as [|e h2 IH]; [discriminate H2|]. destruct e as [q|q|q|q].
    - cbn in H2. injection H2 as -> H2. exists [], (Queued bs), h2. auto.
    - cbn in H2. injection H2 as -> H2. exists [], (Refused bs), h2. auto.
    - destruct (IH H2) as (h0 & e & h3 & -> & H0 & He & H3). exists (Started q :: h0), e, h3. auto.
    - discriminate H2. }
  destruct Hs as (h0 & e & h3 & -> & H0 & He & H3).
  assert (Hr0 : flat_map result_of h0 = []).
  { pose proof (call_lengths h0) as K. rewrite H0 in K. destruct (flat_map result_of h0); [reflexivity|discriminate K]. }
  assert (Hre : flat_map result_of (h1 ++ h0 ++ e :: h3) = flat_map result_of h1 ++ (None, []) :: flat_map result_of h3).
  { rewrite !flat_map_app, Hr0. destruct He as [-> | ->]; reflexivity. }
  pose proof Hres as Hres'. rewrite Hre in Hres'. pose proof (call_lengths h1) as K. rewrite H1, <- Hlen in K.
  assert (Hxs : flat_map result_of h1 = xs1 /\ (None, []) :: flat_map result_of h3 = x :: xs2).
  { clear - Hres' K. revert K Hres'. generalize (flat_map result_of h1) as u. induction xs1 as [|y xs1 IH]; intros [|v u] K H; try discriminate K.
    - split; [reflexivity|exact H].
    - cbn [length] in K. injection K as K. cbn [List.app] in H. injection H as -> H. destruct (IH u K H) as [-> H']. split; [reflexivity|exact H']. }
  destruct Hxs as [Hx1 Hx2]. injection Hx2 as <- Hx2.
  exists (h1 ++ h0), e, h3. rewrite <- app_assoc. split; [exact Hh|]. split; [exact He|].
  split; [rewrite flat_map_app, H0, app_nil_r; exact H1|]. split; [rewrite flat_map_app, Hr0, app_nil_r; exact Hx1|]. auto 10.
Qed.

Lemma run_latency : forall c ops1 bs ops2 xs1 x xs2 tx, config_ok c -> Forall plain_op (ops1 ++ TBytes bs :: ops2) ->
  tx_run (TInit c :: ops1 ++ TBytes bs :: ops2) (tx_init_state 4) = Ok ((None, []) :: xs1 ++ x :: xs2, tx) -> length xs1 = length ops1 ->
  exists h1 ws, flat_map call_of h1 = ops1 /\ flat_map result_of h1 = xs1 /\ history_ok c h1 /\ waiting h1 ws /\
    ((length ws < 3)%nat -> (Z.of_nat (length ws) + 2) * longest c <= lasting (intervals xs2) ->
     exists a b, intervals xs2 = a ++ on_track c (Some bs) ++ b /\ lasting (a ++ on_track c (Some bs)) <= (Z.of_nat (length ws) + 2) * longest c).
Proof.
  intros c ops1 bs ops2 xs1 x xs2 tx Hc Hops Hrun Hlen.
  destruct (run_cut c ops1 bs ops2 xs1 x xs2 tx Hc Hops Hrun Hlen) as (h1 & e & h2 & Hh & He & H1 & Hr1 & H2 & Hr2 & -> & Hcall & Hres).
  destruct (Hh h1 e h2 eq_refl) as (ws & Hw & Hj). exists h1, ws. split; [exact H1|]. split; [exact Hr1|]. split; [exact (history_app _ _ _ Hh)|]. split; [exact Hw|].
  intros Hl Ht. rewrite <- Hr2, intervals_ticks in *. rewrite <- Hcall in Hops. apply queued_plain in Hops.
  destruct He as [-> | ->]; [|cbn in Hj; lia]. exact (proj1 (latency_place c h1 bs h2 ws Hc Hh Hops Hw Ht)).
Qed.

Lemma run_order : forall c ops1 bs ops2 xs1 x xs2 tx, config_ok c -> Forall plain_op (ops1 ++ TBytes bs :: ops2) ->
  tx_run (TInit c :: ops1 ++ TBytes bs :: ops2) (tx_init_state 4) = Ok ((None, []) :: xs1 ++ x :: xs2, tx) -> length xs1 = length ops1 ->
  4 * longest c <= lasting (intervals xs2) ->
  exists h1 e h2, history_ok c (h1 ++ e :: h2) /\ flat_map call_of h1 = ops1 /\ flat_map result_of h1 = xs1 /\ flat_map result_of h2 = xs2 /\
    (e = Refused bs /\ (exists ws, waiting h1 ws /\ length ws = 3%nat) \/
     e = Queued bs /\ let h := h1 ++ e :: h2 in nth_error (delivered c (None :: started h) (length (ticks h))) (length (queued h1)) = Some bs).
Proof.
  intros c ops1 bs ops2 xs1 x xs2 tx Hc Hops Hrun Hlen Ht.
  destruct (run_cut c ops1 bs ops2 xs1 x xs2 tx Hc Hops Hrun Hlen) as (h1 & e & h2 & Hh & He & H1 & Hr1 & H2 & Hr2 & -> & Hcall & Hres).
  exists h1, e, h2. split; [exact Hh|]. split; [exact H1|]. split; [exact Hr1|]. split; [exact Hr2|].
  destruct (Hh h1 e h2 eq_refl) as (ws & Hw & Hj). rewrite <- Hcall in Hops. apply queued_plain in Hops. rewrite <- Hr2, intervals_ticks in Ht.
  pose proof (longest_pos c Hc). destruct He as [-> | ->]; [right|left].
  - split; [reflexivity|]. refine (proj2 (latency_place c h1 bs h2 ws Hc Hh Hops Hw _)). cbn in Hj. nia.
  - split; [reflexivity|]. exists ws. split; [exact Hw|exact Hj].
Qed.

Lemma run_spaced : forall c ops1 bs ops2 xs1 x xs2 tx, config_ok c -> Forall plain_op (ops1 ++ TBytes bs :: ops2) ->
  tx_run (TInit c :: ops1 ++ TBytes bs :: ops2) (tx_init_state 4) = Ok ((None, []) :: xs1 ++ x :: xs2, tx) -> length xs1 = length ops1 ->
  apart (longest c) (longest c) (combine (ops1 ++ TBytes bs :: ops2) (xs1 ++ x :: xs2)) = true ->
  2 * longest c <= lasting (intervals xs2) ->
  exists a b, intervals xs2 = a ++ on_track c (Some bs) ++ b /\ lasting (a ++ on_track c (Some bs)) <= 2 * longest c.
Proof.
  intros c ops1 bs ops2 xs1 x xs2 tx Hc Hops Hrun Hlen Ha Ht.
  destruct (run_cut c ops1 bs ops2 xs1 x xs2 tx Hc Hops Hrun Hlen) as (h1 & e & h2 & Hh & He & H1 & Hr1 & H2 & Hr2 & Ex & Hcall & Hres).
  rewrite <- Hcall, <- Hres, pairs_combine in Ha. apply apart_spaced in Ha. rewrite <- Hcall in Hops. apply queued_plain in Hops.
  rewrite <- Hr2, intervals_ticks in *. destruct He as [-> | ->].
  - apply (spaced_place c h1 bs h2); assumption.
  - contradiction (spaced_accepted c _ Hc Hh Hops Ha bs). apply in_or_app. right. left. reflexivity.
Qed.

Lemma run_none_refused : forall c ops xs tx, config_ok c -> Forall plain_op ops ->
  tx_run (TInit c :: ops) (tx_init_state 4) = Ok ((None, []) :: xs, tx) ->
  apart (longest c) (longest c) (combine ops xs) = true ->
  exists h, flat_map call_of h = ops /\ flat_map result_of h = xs /\ history_ok c h /\
    queued h = flat_map (fun o => match o with TBytes bs => [bs] | _ => [] end) ops.
Proof.
  intros c ops xs tx Hc Hops Hrun Ha. destruct (tx_history c _ Hc Hops) as (xs' & s & h & Htx & Hcall & Hres & Hh).
  rewrite Hrun in Htx. injection Htx as <- <-. exists h. split; [exact Hcall|]. split; [exact Hres|]. split; [exact Hh|].
  rewrite <- Hcall, <- Hres, pairs_combine in Ha. apply apart_spaced in Ha. rewrite <- Hcall in Hops. apply queued_plain in Hops.
  pose proof (spaced_accepted c h Hc Hh Hops Ha) as Hn. rewrite <- Hcall. clear - Hn. induction h as [|e h IH]; [reflexivity|].
  unfold queued in *. cbn [flat_map]. rewrite flat_map_app, <- IH by (intros bs Hb; apply (Hn bs); right; exact Hb).
  destruct e as [q|q|q|q]; try reflexivity. contradiction (Hn q). left. reflexivity.
Qed.
