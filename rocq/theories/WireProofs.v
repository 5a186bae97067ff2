(** Cutout windows and the mean voltage of the track signal *)
From Verif Require Import Prelude SpecCodec Tx SpecTx TxProofs SpecWire.

(** ** Windows *)

Definition total (l : list (Z * list tx_event)) : Z := fold_right Z.add 0 (map fst l).

Lemma call_times_app : forall a b n, call_times n (a ++ b) = call_times n a ++ call_times (n + total a) b.
Proof.
  induction a as [|[t ev] a IH]; intros b n; [unfold total; cbn; rewrite Z.add_0_r; reflexivity|].
  rewrite <- app_comm_cons. cbn [call_times]. rewrite IH, <- app_assoc. unfold total. cbn [map fst fold_right].
  do 3 f_equal. lia.
Qed.

Lemma alternate_calls : forall c ts f n x, In x (call_times n (alternate c f ts)) -> fst x <> BiDiChannel1.
Proof.
  intros c. induction ts as [|t ts IH]; intros f n x H; [destruct H|]. cbn [alternate call_times map] in H.
  destruct H as [<-|H]; [destruct f; discriminate|exact (IH _ _ _ H)].
Qed.

Lemma on_track_head : forall c p, exists t r, on_track c p = (t, [first_half c]) :: r.
Proof.
  intros c p. unfold on_track.
  destruct (match p with None => idle_halves | Some bs => packet_halves c bs end) as [|t r] eqn:E.
  - exfalso. destruct p as [bs|]; [exact (packet_halves_nonempty _ _ E)|discriminate E].
  - do 2 eexists. reflexivity.
Qed.

Lemma peel : forall {X} (A L a b : list X) x, ~ In x A -> A ++ L = a ++ x :: b -> exists a', a = A ++ a' /\ L = a' ++ x :: b.
Proof.
  intros X. induction A as [|y A IH]; intros L a b x Hn H; [exists a; split; [reflexivity|exact H]|].
  destruct a as [|z a].
  - injection H as -> _. exfalso. apply Hn. left. reflexivity.
  - injection H as -> H. destruct (IH L a b x) as (a' & -> & H').
    + intro Hi. apply Hn. right. exact Hi.
    + exact H.
    + exists a'. split; [reflexivity|exact H'].
Qed.

Lemma agree_prefix : forall {X} (a b w : list X), agree (a ++ b) w -> agree a w.
Proof.
  intros X a b w H i x y Hx Hy. apply (H i); [|exact Hy]. rewrite nth_error_app1; [exact Hx|].
  apply nth_error_Some. congruence.
Qed.

Lemma windows_track : forall c ps n a t b, cfg_bidi c = true ->
  call_times n (flat_map (on_track c) ps) = a ++ (BiDiChannel1, t) :: b ->
  (exists a', a = a' ++ [(first_half c, t - 80); (TrackOutputs false false, t - 51); (BiDiStart, t - 51)]) /\
  agree b [(BiDiChannel2, t + 113); (BiDiEnd, t + 374); (first_half c, t + 391)].
Proof.
  intros c. induction ps as [|p ps IH]; intros n a t b Hb H; [destruct a; discriminate H|].
  cbn [flat_map] in H. unfold on_track in H at 1. rewrite Hb, <- app_assoc, call_times_app in H.
  apply peel in H; [|intro Hi; exact (alternate_calls _ _ _ _ _ Hi eq_refl)].
  destruct H as (a' & -> & H). set (m := n + total _) in H. clearbody m.
  rewrite call_times_app in H. cbn in H. set (m' := m + 471) in H.
  destruct a' as [|x1 a']; [discriminate H|]. injection H as <- H.
  destruct a' as [|x2 a']; [discriminate H|]. injection H as <- H.
  destruct a' as [|x3 a']; [discriminate H|]. injection H as <- H.
  destruct a' as [|x4 a'].
  - injection H as <- <-. split.
    + eexists. f_equal. replace (m + 29 + 51 - 80) with m by lia. replace (m + 29 + 51 - 51) with (m + 29) by lia. reflexivity.
    + intros i x y Hx Hy. destruct i as [|[|[|i]]]; cbn in Hx, Hy.
      * injection Hx as <-. injection Hy as <-. first [reflexivity|f_equal; lia].
      * injection Hx as <-. injection Hy as <-. first [reflexivity|f_equal; lia].
      * injection Hy as <-. destruct ps as [|p' ps]; [discriminate Hx|]. cbn [flat_map] in Hx.
        destruct (on_track_head c p') as (t' & r & E). rewrite E in Hx. cbn in Hx. injection Hx as <-.
        unfold m'. f_equal. lia.
      * destruct i; discriminate Hy.
  - injection H as <- H.
    destruct a' as [|x5 a']; [discriminate H|]. injection H as <- H.
    destruct a' as [|x6 a']; [discriminate H|]. injection H as <- H.
    destruct (IH _ _ _ _ Hb H) as ((a0 & ->) & Hag). split; [|exact Hag].
    match goal with |- exists a', ?A ++ ?x1 :: ?x2 :: ?x3 :: ?x4 :: ?x5 :: ?x6 :: a0 ++ _ = _ =>
      exists (A ++ x1 :: x2 :: x3 :: x4 :: x5 :: x6 :: a0) end.
    rewrite <- app_assoc. reflexivity.
Qed.

Lemma windows : forall c h a t b, cfg_bidi c = true -> history_ok c h ->
  call_times 0 (ticks h) = a ++ (BiDiChannel1, t) :: b ->
  (exists a', a = a' ++ [(first_half c, t - 80); (TrackOutputs false false, t - 51); (BiDiStart, t - 51)]) /\
  agree b [(BiDiChannel2, t + 113); (BiDiEnd, t + 374); (first_half c, t + 391)].
Proof.
  intros c h a t b Hb Hh H. destruct (ticks_prefix c h Hh) as (rest & Hr).
  assert (Hf : call_times 0 (track c h) = a ++ (BiDiChannel1, t) :: (b ++ call_times (0 + total (ticks h)) rest))
    by (rewrite <- Hr, call_times_app, H, <- app_assoc; reflexivity).
  apply windows_track in Hf; [|exact Hb]. destruct Hf as (Ha & Hag). split; [exact Ha|exact (agree_prefix _ _ _ Hag)].
Qed.

(** ** Mean voltage *)

Definition outs (o : bool * bool) (l : list (Z * list tx_event)) : bool * bool :=
  fold_left (fun o x => set_outputs o (snd x)) l o.

Lemma charge_app : forall a b o, charge o (a ++ b) = charge o a + charge (outs o a) b.
Proof.
  induction a as [|[t ev] a IH]; intros b o; [reflexivity|]. rewrite <- app_comm_cons. cbn [charge]. rewrite IH.
  change (outs o ((t, ev) :: a)) with (outs (set_outputs o ev) a). lia.
Qed.
Lemma cutouts_app : forall a b, cutouts (a ++ b) = cutouts a + cutouts b.
Proof. intros. unfold cutouts. rewrite filter_app, app_length. lia. Qed.
Lemma cutouts_cons : forall x b, cutouts (x :: b) = cutouts [x] + cutouts b.
Proof. intros. rewrite <- cutouts_app. reflexivity. Qed.

Lemma sign_first : forall c o, sign (set_outputs o [first_half c]) = polarity c.
Proof. intros c o. unfold first_half, polarity. destruct (cfg_invert c); reflexivity. Qed.
Lemma sign_second : forall c o, sign (set_outputs o [second_half c]) = - polarity c.
Proof. intros c o. unfold second_half, polarity. destruct (cfg_invert c); reflexivity. Qed.
Lemma polarity_sq : forall c, polarity c * polarity c = 1.
Proof. intros c. unfold polarity. destruct (cfg_invert c); reflexivity. Qed.

Definition pairs (ds : list Z) : list Z := flat_map (fun d => [d; d]) ds.
Lemma half_bits_pairs : forall d1 d0 bits, half_bits d1 d0 bits = pairs (map (fun x : bool => if x then d1 else d0) bits).
Proof. intros. unfold half_bits, pairs. induction bits as [|x bits IH]; [reflexivity|]. cbn. rewrite IH. reflexivity. Qed.

Lemma alternate_whole : forall c ds o, charge o (alternate c true (pairs ds)) = 0 /\ cutouts (alternate c true (pairs ds)) = 0.
Proof.
  intros c. induction ds as [|d ds IH]; intros o; [split; reflexivity|].
  cbn [pairs flat_map List.app alternate negb]. change (flat_map _ ds) with (pairs ds). split.
  - cbn [charge]. rewrite sign_first, sign_second. destruct (IH (set_outputs (set_outputs o [first_half c]) [second_half c])) as [-> _]. lia.
  - rewrite cutouts_cons, (cutouts_cons _ (alternate _ _ _)). destruct (IH o) as [_ ->]. reflexivity.
Qed.

(** Invariant of every prefix *)
Definition held (c : tx_config) (o : bool * bool) (l : list (Z * list tx_event)) : Prop :=
  29 * cutouts l <= polarity c * charge o l <= 29 * cutouts l + 114.

Lemma held_nil : forall c o, held c o [].
Proof. intros. unfold held. cbn. unfold cutouts. cbn. lia. Qed.

Lemma held_alternate : forall c ds o l rest, Forall (fun d => 0 <= d <= 114) ds ->
  l ++ rest = alternate c true (pairs ds) -> held c o l.
Proof.
  intros c. induction ds as [|d ds IH]; intros o l rest Hd H.
  - destruct l; [apply held_nil|discriminate H].
  - inversion Hd as [|? ? Hd1 Hd2]; subst. cbn [pairs flat_map List.app alternate negb] in H. change (flat_map _ ds) with (pairs ds) in H.
    destruct l as [|x l]; [apply held_nil|]. injection H as -> H.
    destruct l as [|x l].
    + unfold held. cbn [charge]. rewrite sign_first.
      replace (cutouts _) with 0 by reflexivity. pose proof (polarity_sq c). nia.
    + injection H as -> H. specialize (IH (set_outputs (set_outputs o [first_half c]) [second_half c]) l rest Hd2 H).
      unfold held in *. rewrite cutouts_cons, (cutouts_cons _ l).
      cbn [charge]. rewrite sign_first, sign_second. unfold cutouts at 1 2 4 5. cbn [filter existsb snd first_half second_half length orb].
      change (Z.of_nat 0) with 0. lia.
Qed.

Lemma on_track_pairs : forall c p, config_ok c -> exists ds, Forall (fun d => 0 <= d <= 114) ds /\
  on_track c p = alternate c true (pairs ds) ++ (if cfg_bidi c then cutout c else []).
Proof.
  intros c p (_ & H1 & H0). destruct p as [bs|]; unfold on_track, packet_halves, idle_halves; rewrite half_bits_pairs;
    (eexists; split; [|reflexivity]); apply Forall_forall; intros x Hx; apply in_map_iff in Hx; destruct Hx as ([] & <- & _); lia.
Qed.

Lemma cutout_whole : forall c o, polarity c * charge o (cutout c) = 29 /\ cutouts (cutout c) = 1.
Proof.
  intros c o. split; [|reflexivity]. unfold cutout, first_half, polarity. destruct (cfg_invert c); reflexivity.
Qed.

Lemma held_cutout : forall c o l rest, l ++ rest = cutout c -> held c o l.
Proof.
  intros c o l rest H. unfold cutout in H. destruct l as [|? l]; [apply held_nil|]. injection H as -> H.
  unfold held, first_half, polarity.
  destruct l as [|? l]; [|injection H as -> H; destruct l as [|? l]; [|injection H as -> H; destruct l as [|? l];
    [|injection H as -> H; destruct l as [|? l]; [|injection H as -> H; destruct l as [|? l]; [|discriminate H]]]]].
  all: destruct (cfg_invert c); vm_compute; split; discriminate.
Qed.

Lemma on_track_whole : forall c p o, config_ok c ->
  polarity c * charge o (on_track c p) = 29 * cutouts (on_track c p) /\
  cutouts (on_track c p) = (if cfg_bidi c then 1 else 0).
Proof.
  intros c p o Hc. destruct (on_track_pairs c p Hc) as (ds & Hd & ->). rewrite charge_app, cutouts_app.
  destruct (alternate_whole c ds o) as [-> ->]. destruct (cfg_bidi c).
  - destruct (cutout_whole c (outs o (alternate c true (pairs ds)))) as [H1 H2]. rewrite H2. lia.
  - cbn. unfold cutouts. cbn. lia.
Qed.

Lemma prefix_app : forall {X} (a b l rest : list X), l ++ rest = a ++ b ->
  (exists r, l ++ r = a) \/ (exists l', l = a ++ l' /\ l' ++ rest = b).
Proof.
  intros X. induction a as [|x a IH]; intros b l rest H; [right; exists l; split; [reflexivity|exact H]|].
  destruct l as [|y l]; [left; eexists; reflexivity|]. injection H as -> H.
  destruct (IH _ _ _ H) as [[r <-]|(l' & -> & H')]; [left; exists r; reflexivity|right; exists l'; split; [reflexivity|exact H']].
Qed.

Lemma held_on_track : forall c p o l rest, config_ok c -> l ++ rest = on_track c p -> held c o l.
Proof.
  intros c p o l rest Hc H. destruct (on_track_pairs c p Hc) as (ds & Hd & E). rewrite E in H.
  apply prefix_app in H. destruct H as [[r H]|(l' & -> & H)].
  - exact (held_alternate c ds o l r Hd H).
  - unfold held. rewrite charge_app, cutouts_app. destruct (alternate_whole c ds o) as [-> ->].
    destruct (cfg_bidi c).
    + specialize (held_cutout c (outs o (alternate c true (pairs ds))) l' rest H). unfold held. lia.
    + destruct l'; [cbn; unfold cutouts; cbn; lia|discriminate H].
Qed.

Lemma held_track : forall c ps o l rest, config_ok c -> l ++ rest = flat_map (on_track c) ps -> held c o l.
Proof.
  intros c. induction ps as [|p ps IH]; intros o l rest Hc H.
  - destruct l; [apply held_nil|discriminate H].
  - cbn [flat_map] in H. apply prefix_app in H. destruct H as [[r H]|(l' & -> & H)].
    + exact (held_on_track c p o l r Hc H).
    + specialize (IH (outs o (on_track c p)) l' rest Hc H). unfold held in *. rewrite charge_app, cutouts_app.
      destruct (on_track_whole c p o Hc) as [H1 _]. lia.
Qed.

Lemma drift : forall c h, config_ok c -> history_ok c h ->
  29 * cutouts (ticks h) <= polarity c * charge (false, false) (ticks h) <= 29 * cutouts (ticks h) + 114.
Proof.
  intros c h Hc Hh. destruct (ticks_prefix c h Hh) as (rest & Hr). exact (held_track c _ (false, false) _ rest Hc Hr).
Qed.

Lemma whole_track : forall c ps o, config_ok c ->
  polarity c * charge o (flat_map (on_track c) ps) = if cfg_bidi c then 29 * Z.of_nat (length ps) else 0.
Proof.
  intros c ps o Hc. revert o. induction ps as [|p ps IH]; intros o; [destruct (cfg_bidi c); cbn; lia|].
  cbn [flat_map length]. rewrite charge_app. specialize (IH (outs o (on_track c p))). destruct (on_track_whole c p o Hc) as [H1 H2]. rewrite H2 in H1.
  destruct (cfg_bidi c); lia.
Qed.

Lemma whole : forall c h, config_ok c -> ticks h = track c h ->
  polarity c * charge (false, false) (ticks h) = if cfg_bidi c then 29 * Z.of_nat (S (length (started h))) else 0.
Proof. intros c h Hc ->. exact (whole_track c (None :: started h) (false, false) Hc). Qed.

Lemma no_cutouts : forall c h, config_ok c -> cfg_bidi c = false -> history_ok c h -> cutouts (ticks h) = 0.
Proof.
  intros c h Hc Hb Hh. destruct (ticks_prefix c h Hh) as (rest & Hr).
  assert (H : cutouts (track c h) = 0).
  { unfold track. induction (None :: started h) as [|p ps IH]; [reflexivity|]. cbn [flat_map]. rewrite cutouts_app, IH.
    destruct (on_track_whole c p (false, false) Hc) as [_ ->]. rewrite Hb. reflexivity. }
  rewrite <- Hr, cutouts_app in H. unfold cutouts in *. lia.
Qed.

Lemma balanced : forall c h, config_ok c -> cfg_bidi c = false -> history_ok c h ->
  0 <= polarity c * charge (false, false) (ticks h) <= 114.
Proof. intros c h Hc Hb Hh. pose proof (drift c h Hc Hh). rewrite (no_cutouts c h Hc Hb Hh) in *. lia. Qed.
