(** Orders to drive, repeated and in any order *)
From Verif Require Import Prelude Address SpecCodec SpecTx Tx CodecProofs2 RxState Rx SpecRx SpecExec SpecConf SpecCv SpecBidi SpecSafe
  SpecLayout LayoutProofs4 SpecLayout2 SpecStation SpecPace SpecLatency SpecReact ReactProofs SpecRefresh.

Lemma latest_app : forall a b n k, latest (a ++ b) n k = match latest b n k with Some x => Some x | None => latest a n k end.
Proof.
  induction a as [|[[n' k'] x] a IH]; intros b n k; [cbn [List.app latest]; destruct (latest b n k); reflexivity|].
  cbn [List.app latest]. rewrite IH. destruct (latest b n k); reflexivity.
Qed.

Lemma panel_app : forall a b n k, panel (a ++ b) n k = match panel b n k with Some x => Some x | None => panel a n k end.
Proof. intros. unfold panel. rewrite flat_map_app. apply latest_app. Qed.

Section Refresh.
  Variables (ew : bool) (v : view) (Hv : v_service v = false).
  Let c := v_cvs v.

  Lemma obey_drives : forall p, drives c p ->
    fst (obey ew p v) = v /\ (forall n k, panel (snd (obey ew p v)) n k = orders ew c p n k) /\
    Forall (fun x => match x with Told _ => True | Access _ => False end) (snd (obey ew p v)).
  Proof using Hv.
    intros p Hp. unfold obey. rewrite Hv. unfold operations, orders, drives in *. fold c.
    destruct (recipient c p) as [n|]; [|cbn; auto]. destruct (body_of p) as [|b0 t]; [cbn; auto|].
    replace (b0 <? 0x10) with false by (symmetry; apply Z.ltb_ge; lia).
    replace (b0 <? 0x20) with false by (symmetry; apply Z.ltb_ge; lia).
    replace (b0 <? 0xE0) with true by (symmetry; apply Z.ltb_lt; lia).
    cbn [fst snd]. split; [reflexivity|]. split; [reflexivity|]. apply Forall_forall. intros x Hx. apply in_map_iff in Hx.
    destruct Hx as (e & <- & _). exact Logic.I.
  Qed.

  Lemma obey_all_drives : forall ps, Forall (drives c) ps ->
    fst (obey_all ew ps v) = v /\ Forall (fun x => match x with Told _ => True | Access _ => False end) (snd (obey_all ew ps v)) /\
    (forall n k x, panel (snd (obey_all ew ps v)) n k = Some x -> exists p, In p ps /\ orders ew c p n k = Some x) /\
    (forall n k, panel (snd (obey_all ew ps v)) n k = None -> forall p, In p ps -> orders ew c p n k = None).
  Proof using Hv.
    induction ps as [|p ps IH]; intros H.
    { cbn. split; [reflexivity|]. split; [constructor|]. split; [discriminate|]. intros n k _ p []. }
    inversion H as [|? ? Hp Hps]; subst. specialize (IH Hps). destruct IH as (I1 & I2 & I3 & I4).
    destruct (obey_drives p Hp) as (O1 & O2 & O3). cbn [obey_all]. destruct (obey ew p v) as [v1 a] eqn:E1. cbn [fst snd] in *. subst v1.
    destruct (obey_all ew ps v) as [v2 b] eqn:E2. cbn [fst snd] in *. split; [exact I1|]. split; [apply Forall_app; auto|]. split.
    - intros n k x Hx. rewrite panel_app in Hx. destruct (panel b n k) as [y|] eqn:Eb.
      + injection Hx as ->. destruct (I3 n k x Eb) as (q & Hq & Hx). exists q. split; [right; exact Hq|exact Hx].
      + exists p. split; [left; reflexivity|]. rewrite <- O2. exact Hx.
    - intros n k Hn q Hq. rewrite panel_app in Hn. destruct (panel b n k) as [y|] eqn:Eb; [discriminate Hn|].
      destruct Hq as [<-|Hq]; [rewrite <- O2; exact Hn|exact (I4 n k Eb q Hq)].
  Qed.

  (** The last order stands *)
  Lemma last_stands : forall ps p qs, Forall (drives c) (ps ++ p :: qs) -> (forall q, In q qs -> agree ew c p q) ->
    forall n k x, orders ew c p n k = Some x -> panel (snd (obey_all ew (ps ++ p :: qs) v)) n k = Some x.
  Proof using Hv.
    intros ps p qs H Ha n k x Hx. pose proof H as H0. apply Forall_app in H. destruct H as [H1 H2].
    destruct (obey_all_drives ps H1) as (P1 & _).
    destruct (obey_all_drives (p :: qs) H2) as (_ & _ & Q3 & Q4).
    rewrite obey_app. destruct (obey_all ew ps v) as [v1 a]. cbn [fst snd] in *. subst v1.
    destruct (obey_all ew (p :: qs) v) as [v2 b] eqn:E2. cbn [fst snd] in *. rewrite panel_app.
    destruct (panel b n k) as [y|] eqn:Eb.
    - destruct (Q3 n k y Eb) as (q & [<-|Hq] & Hy); [congruence|]. f_equal. symmetry. exact (Ha q Hq n k x y Hx Hy).
    - rewrite (Q4 n k Eb p (or_introl eq_refl)) in Hx. discriminate Hx.
  Qed.

  Lemma as_a_set : forall ps, Forall (drives c) ps -> (forall p q, In p ps -> In q ps -> agree ew c p q) ->
    fst (obey_all ew ps v) = v /\
    forall n k x, panel (snd (obey_all ew ps v)) n k = Some x <-> exists p, In p ps /\ orders ew c p n k = Some x.
  Proof using Hv.
    intros ps H Ha. destruct (obey_all_drives ps H) as (P1 & _ & P3 & _). split; [exact P1|]. intros n k x. split; [apply P3|].
    intros (p & Hp & Hx). apply in_split in Hp. destruct Hp as (a & b & ->). apply last_stands; [exact H| |exact Hx].
    intros q Hq. apply Ha; apply in_or_app; right; [left; reflexivity|right; exact Hq].
  Qed.
End Refresh.

Section Decoder.
  Context {I : Type} (E : Env I) (m : I -> Z -> Z) (able : access -> Prop) (Hk : keeps_cvs able E m).

  Lemma told_allowed : forall xs, Forall (fun x => match x with Told _ => True | Access _ => False end) xs -> Forall (allowed able) xs.
  Proof. intros xs H. eapply Forall_impl; [|exact H]. intros [e|x] Hx; [exact Hx|contradiction Hx]. Qed.

  Lemma refresh_decoder : forall dos i s es, run E (OInit :: dos) (st0 i) = Ok (tt, s, es) -> logons dos listener0 = [] ->
    let ps := SpecRx.taken dos listener0 in
    Forall (drives (m i)) ps ->
    (forall a, m (Rx.app s) a = m i a) /\ in_service s = false /\
    (forall n k x, panel (seen_in es) n k = Some x -> exists p, In p ps /\ orders (e_east_west E) (m i) p n k = Some x) /\
    ((forall p q, In p ps -> In q ps -> agree (e_east_west E) (m i) p q) ->
     forall p n k x, In p ps -> orders (e_east_west E) (m i) p n k = Some x -> panel (seen_in es) n k = Some x).
  Proof using Hk.
    intros dos i s es H Hlo ps Hps.
    destruct (obey_all_drives (e_east_west E) (new_view (m i)) eq_refl ps Hps) as (P1 & P2 & P3 & _).
    destruct (layout E m able Hk dos i s es H Hlo (told_allowed _ P2)) as (L1 & L2 & L3 & _). fold ps in L1, L2, L3.
    rewrite P1 in L2, L3. split; [exact L2|]. split; [exact L3|]. rewrite L1. split; [exact P3|].
    intros Ha p n k x Hp Hx. apply (proj2 (as_a_set (e_east_west E) (new_view (m i)) eq_refl ps Hps Ha) n k x). exists p. auto.
  Qed.

  Lemma refresh_same : forall dos i s es dos' i' s' es', run E (OInit :: dos) (st0 i) = Ok (tt, s, es) -> logons dos listener0 = [] ->
    run E (OInit :: dos') (st0 i') = Ok (tt, s', es') -> logons dos' listener0 = [] -> m i' = m i ->
    let ps := SpecRx.taken dos listener0 in let ps' := SpecRx.taken dos' listener0 in
    Forall (drives (m i)) ps -> (forall p q, In p ps -> In q ps -> agree (e_east_west E) (m i) p q) ->
    (forall p, In p ps <-> In p ps') ->
    forall n k, panel (seen_in es) n k = panel (seen_in es') n k.
  Proof using Hk.
    intros dos i s es dos' i' s' es' H Hlo H' Hlo' Hm ps ps' Hps Ha Hsame n k.
    assert (Hps' : Forall (drives (m i)) ps') by (rewrite Forall_forall in *; intros p Hp; apply Hps, Hsame, Hp).
    pose proof (refresh_decoder dos i s es H Hlo Hps) as (_ & _ & A1 & A2).
    pose proof (refresh_decoder dos' i' s' es' H' Hlo') as B. rewrite Hm in B. destruct (B Hps') as (_ & _ & B1 & B2). fold ps in A1, A2. fold ps' in B1, B2.
    specialize (A2 Ha). assert (Ha' : forall p q, In p ps' -> In q ps' -> agree (e_east_west E) (m i) p q)
      by (intros p q Hp Hq; apply Ha; apply Hsame; assumption). specialize (B2 Ha').
    destruct (panel (seen_in es) n k) as [x|] eqn:E1.
    - destruct (A1 n k x E1) as (p & Hp & Hx). symmetry. apply (B2 p n k x (proj1 (Hsame p) Hp) Hx).
    - destruct (panel (seen_in es') n k) as [y|] eqn:E2; [|reflexivity]. destruct (B1 n k y E2) as (p & Hp & Hy).
      rewrite (A2 p n k y (proj2 (Hsame p) Hp) Hy) in E1. discriminate E1.
  Qed.
End Decoder.

Section Station.
  Context {I : Type} (E : Env I) (m : I -> Z -> Z) (able : access -> Prop) (time : I -> Z)
    (Hk : keeps_cvs able E m) (HE : short_cv1 E) (HC : clock E time).

  Lemma idle_drives : forall c, drives c [0xFF; 0x00; 0xFF].
  Proof. intros c. exact Logic.I. Qed.

  Lemma idle_orders : forall ew c n k, orders ew c [0xFF; 0x00; 0xFF] n k = None.
  Proof. reflexivity. Qed.

  Lemma in_contents : forall ps p, In p (contents ps) -> p = [0xFF; 0x00; 0xFF] \/ In p (handed_over ps).
  Proof.
    intros ps p H. unfold contents, handed_over in *. apply in_map_iff in H. destruct H as (o & <- & Ho). destruct o as [b|]; [right|left; reflexivity].
    apply in_flat_map. exists (Some b). split; [exact Ho|left; reflexivity].
  Qed.

  Lemma queued_asked : forall h p, In p (queued h) -> In p (asked (flat_map call_of h)).
  Proof.
    induction h as [|e h IH]; intros p H; [exact H|]. unfold asked, queued in *. cbn [flat_map] in *. rewrite flat_map_app. apply in_or_app.
    apply in_app_or in H. destruct H as [H|H]; [left|right; apply IH; exact H]. destruct e; cbn in *; auto; contradiction.
  Qed.

  Theorem refresh_station : forall c ops1 bs ops2 xs1 x xs2 tx i, 0 <= time i -> config_ok c -> Forall plain_op (ops1 ++ TBytes bs :: ops2) ->
    (forall p, In (TBytes p) (ops1 ++ TBytes bs :: ops2) -> packet_ok p /\ complete p /\ drives (m i) p) ->
    (forall p, In (TBytes p) ops2 -> agree (e_east_west E) (m i) bs p) ->
    tx_run (TInit c :: ops1 ++ TBytes bs :: ops2) (tx_init_state 4) = Ok ((None, []) :: xs1 ++ x :: xs2, tx) -> length xs1 = length ops1 ->
    exists h1 ws, flat_map call_of h1 = ops1 /\ flat_map result_of h1 = xs1 /\ history_ok c h1 /\ SpecTx.waiting h1 ws /\
    ((length ws < 3)%nat -> (Z.of_nat (length ws) + 3) * longest c <= lasting (intervals xs2) ->
     forall dos, filter is_receive dos = map OReceive (map fst (intervals (xs1 ++ x :: xs2))) -> ~ In ODisable dos ->
       paced c dos -> on_time dos ->
       exists s es, run E (OInit :: dos) (st0 i) = Ok (tt, s, es) /\
       forall n k y, orders (e_east_west E) (m i) bs n k = Some y -> panel (seen_in es) n k = Some y).
  Proof using Hk HE HC.
    intros c ops1 bs ops2 xs1 x xs2 tx i Hi Hc Hops Hpk Ha Hrun Hlen.
    destruct (reaction E m able time Hk HE HC c ops1 bs ops2 xs1 x xs2 tx i Hi Hc Hops) as (h1 & ws & H1 & Hr1 & Hh1 & Hw & Hre); try assumption.
    { intros p Hp. destruct (Hpk p Hp) as (A & B & _). auto. }
    exists h1, ws. split; [exact H1|]. split; [exact Hr1|]. split; [exact Hh1|]. split; [exact Hw|].
    intros Hl Ht dos Hdos Hnd Hp Hon. destruct (Hre Hl Ht) as (h2 & ps & qs & H2 & _ & _ & Hps & (rest & Hqs) & Hob).
    destruct (Hob dos Hdos Hnd Hp Hon) as (s & es & more & left & Hr & Hm & Hy). exists s, es. split; [exact Hr|].
    assert (Dps : forall p, In p (contents ps) -> drives (m i) p).
    { intros p Hin. apply in_contents in Hin. destruct Hin as [->|Hin]; [apply idle_drives|]. rewrite Hps in Hin. apply queued_asked in Hin.
      rewrite H1 in Hin. apply Hpk. apply in_or_app. left. unfold asked in Hin. apply in_flat_map in Hin. destruct Hin as (o & Ho & Hin).
      destruct o; cbn in Hin; try contradiction. destruct Hin as [<-|[]]. exact Ho. }
    assert (Dqs : forall p, In p (contents qs) -> p = [0xFF; 0x00; 0xFF] \/ In (TBytes p) ops2).
    { intros p Hin. apply in_contents in Hin. destruct Hin as [->|Hin]; [left; reflexivity|right].
      assert (Hin2 : In p (queued h2)) by (rewrite Hqs; apply in_or_app; left; exact Hin). apply queued_asked in Hin2. rewrite H2 in Hin2.
      unfold asked in Hin2. apply in_flat_map in Hin2. destruct Hin2 as (o & Ho & Hin2). destruct o; cbn in Hin2; try contradiction. destruct Hin2 as [<-|[]]. exact Ho. }
    assert (Dall : Forall (drives (v_cvs (new_view (m i)))) (contents ps ++ bs :: more)).
    { apply Forall_forall. intros p Hin. apply in_app_or in Hin. destruct Hin as [Hin|[<-|Hin]]; [apply Dps; exact Hin|apply Hpk; apply in_or_app; right; left; reflexivity|].
      destruct (Dqs p) as [->|K]; [rewrite Hm; apply in_or_app; left; exact Hin|apply idle_drives|]. apply Hpk. apply in_or_app. right. right. exact K. }
    destruct (obey_all_drives (e_east_west E) (new_view (m i)) eq_refl _ Dall) as (_ & P2 & _). destruct (Hy (told_allowed able _ P2)) as (Hs & _).
    intros n k y Ho. rewrite Hs. apply (last_stands (e_east_west E) (new_view (m i)) eq_refl _ _ _ Dall); [|exact Ho].
    intros q Hin n' k' a b Hx1 Hx2. destruct (Dqs q) as [->|K]; [rewrite Hm; apply in_or_app; left; exact Hin|discriminate Hx2|]. exact (Ha q K n' k' a b Hx1 Hx2).
  Qed.
End Station.
