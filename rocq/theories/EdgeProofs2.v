(** Through two wires: a decoder board follows the command station *)
From Verif Require Import Prelude Address ZBits SpecCodec SpecTx TxProofs Tx RxState Rx CodecProofs CodecProofs2 RxLogic SpecRx
  RxBitProofs RxBitProofs2 RxBitProofs3 RxBitProofs4 RxBitProofs5 SpecExec SpecConf SpecCv SpecLogon SpecBidi SpecSafe SafeProofs2
  SpecLayout LayoutProofs4 LayoutProofs5 LayoutProofs6 SpecLayout2 LayoutProofs7 LayoutProofs8 ReplProofs ReplProofs3
  SpecStation StationProofs StationProofs2 StationProofs4 AudibleProofs SpecPace PaceProofs PaceProofs2 Stm32 SpecEdges EdgeProofs.

(** ** Measured durations in the shape of the captured ones *)

Definition measured (x t : Z) : Prop := off 16 (m16 x) t.

Lemma measured_some : forall x, measured x (m16 x).
Proof. intros x. unfold measured, off. replace (m16 x - m16 x) with 0 by lia. unfold m16. pose proof (Z.mod_pos_bound x 65536 ltac:(lia)). cbn. lia. Qed.

Lemma unflatten : forall (A B : Type) (R : A -> B -> Prop) (xss : list (list A)) k ys, (forall x, exists y, R x y) ->
  Forall2 R (concat (firstn k xss)) ys -> exists yss, Forall2 (Forall2 R) xss yss /\ ys = concat (firstn k yss).
Proof.
  intros A B R xss k ys Hex. revert k ys. induction xss as [|xs xss IH]; intros k ys H.
  - rewrite firstn_nil in H. cbn in H. inversion H; subst. exists []. split; [constructor|rewrite firstn_nil; reflexivity].
  - destruct k as [|k].
    + cbn in H. inversion H; subst. destruct (IH 0%nat [] ltac:(constructor)) as (yss & H1 & _).
      assert (Hy : exists ys, Forall2 R xs ys).
      { clear - Hex. induction xs as [|x xs (ys & IH)]; [exists []; constructor|]. destruct (Hex x) as (y & Hy). exists (y :: ys). constructor; assumption. }
      destruct Hy as (ys & Hy). exists (ys :: yss). split; [constructor; assumption|reflexivity].
    + cbn [firstn concat] in H. apply Forall2_app_inv_l in H. destruct H as (y1 & y2 & H1 & H2 & ->).
      destruct (IH k y2 H2) as (yss & H3 & ->). exists (y1 :: yss). split; [constructor; assumption|reflexivity].
Qed.

Lemma unflatten_all : forall (A B : Type) (R : A -> B -> Prop) (xss : list (list A)) ys,
  Forall2 R (concat xss) ys -> exists yss, Forall2 (Forall2 R) xss yss /\ concat yss = ys.
Proof.
  intros A B R xss. induction xss as [|xs xss IH]; intros ys H.
  - inversion H; subst. exists []. split; [constructor|reflexivity].
  - cbn [concat] in H. apply Forall2_app_inv_l in H. destruct H as (y1 & y2 & H1 & H2 & ->).
    destruct (IH y2 H2) as (yss & H3 & <-). exists (y1 :: yss). split; [constructor; assumption|reflexivity].
Qed.

Lemma measured_track : forall c ps p since n ts, config_ok c -> Forall (fun p => packet_ok (bytes p)) (p :: ps) ->
  (n <= length (flat_map (on_track c) (p :: ps)))%nat ->
  Forall2 (off 16) (captured since (firstn n (flat_map (on_track c) (p :: ps)))) ts ->
  exists g s bss, (length g <= 1)%nat /\ Forall2 (Forall2 (Forall2 measured)) (emissions c s (p :: ps)) bss /\
    ts = g ++ concat (firstn (n - 1) (concat bss)).
Proof.
  intros c ps p since n ts Hc Hps Hn H. destruct (captured_track c ps p since n Hc Hps Hn) as (g & s & Hg & E).
  rewrite E in H. clear E.
  assert (H' : Forall2 measured (g ++ concat (firstn (n - 1) (concat (emissions c s (p :: ps))))) ts).
  { revert ts H. generalize (g ++ concat (firstn (n - 1) (concat (emissions c s (p :: ps))))) as l. clear.
    induction l as [|x l IH]; intros ts H; inversion H; subst; constructor; [assumption|apply IH; assumption]. }
  clear H. apply Forall2_app_inv_l in H'. destruct H' as (g' & ts' & Hg' & H & ->).
  destruct (unflatten _ _ measured _ _ _ (fun x => ex_intro _ _ (measured_some x)) H) as (yss & H1 & ->).
  destruct (unflatten_all _ _ _ _ _ H1) as (bss & H2 & <-).
  exists g', s, bss. split; [|split; [exact H2|reflexivity]].
  clear - Hg Hg'. induction Hg' as [|x y l l' Hxy Hg' IH]; [exact Hg|]. cbn [length] in *. destruct Hg'; cbn [length] in *; lia.
Qed.

(** ** They are heard as the packets *)

(** Durations of a half bit before they are measured *)
Lemma halves_solid : forall c p, config_ok c ->
  Forall2 (fun d b => forall t, measured (1 + d) t -> half_bit t = Some b) (halves c p) (doubled (bits_of c p)).
Proof.
  intros c p (H1 & H2 & H3).
  assert (K : forall d1 d0 bits, 56 <= d1 <= 60 -> 97 <= d0 <= 114 ->
    Forall2 (fun d b => forall t, measured (1 + d) t -> half_bit t = Some b) (half_bits d1 d0 bits) (doubled bits)).
  { intros d1 d0 bits Hd1 Hd0. induction bits as [|b bits IH]; [constructor|].
    change (doubled (b :: bits)) with (b :: b :: doubled bits). change (half_bits d1 d0 (b :: bits)) with
      ([if b then d1 else d0; if b then d1 else d0] ++ half_bits d1 d0 bits).
    assert (P1 : forall t, measured (1 + d1) t -> half_bit t = Some true).
    { intros t Ht. unfold measured, off, m16 in Ht. rewrite Z.mod_small in Ht by lia. apply half_one. lia. }
    assert (P0 : forall t, measured (1 + d0) t -> half_bit t = Some false).
    { intros t Ht. unfold measured, off, m16 in Ht. rewrite Z.mod_small in Ht by lia. apply half_zero. lia. }
    destruct b; cbn [List.app]; repeat (constructor; [assumption|]); exact IH. }
  destruct p as [bs|]; cbn [halves]; unfold packet_halves, idle_halves, bits_of; apply K; lia.
Qed.

Lemma singles_measured : forall ts tss, Forall2 (Forall2 measured) (map (fun t => [t]) ts) tss ->
  exists us, tss = map (fun t => [t]) us /\ Forall2 measured ts us.
Proof.
  induction ts as [|t ts IH]; intros tss H; cbn [map] in H; inversion H as [|? ? ? ? H1 H2]; subst; [exists []; split; [reflexivity|constructor]|].
  destruct (IH _ H2) as (us & -> & Hu). inversion H1 as [|? ? ? ? H3 H4]; subst. inversion H4; subst.
  eexists (_ :: us). split; [reflexivity|]. constructor; eassumption.
Qed.

Lemma nothing_measured : forall k tss, Forall2 (Forall2 measured) (repeat [] k) tss -> tss = repeat [] k.
Proof.
  induction k as [|k IH]; intros tss H; cbn [repeat] in *; inversion H as [|? ? ? ? H1 H2]; subst; [reflexivity|].
  inversion H1; subst. f_equal. apply IH. exact H2.
Qed.

Lemma emission_parts : forall c p s tss, Forall2 (Forall2 measured) (emission c s p) tss ->
  exists u us, tss = map (fun t => [t]) (u :: us) ++ repeat [] (if cfg_bidi c then 5 else 0) /\
    measured s u /\ Forall2 measured (map (Z.add 1) (tl (halves c p))) us.
Proof.
  intros c p s tss H. unfold emission in H. apply Forall2_app_inv_l in H. destruct H as (a & b & Ha & Hb & ->).
  apply nothing_measured in Hb. apply singles_measured in Ha. destruct Ha as (us & -> & Hu).
  inversion Hu as [|? u ? us' H1 H2]; subst. exists u, us'. auto.
Qed.

Lemma emission_block : forall c p s tss, config_ok c -> packet_ok (bytes p) ->
  Forall2 (Forall2 measured) (emission c s p) tss -> block c p tss.
Proof.
  intros c p s tss Hc Hp H. apply emission_parts in H. destruct H as (u & us & -> & _ & Hu). split.
  - exists (halves_of [u]), (repeat [] (if cfg_bidi c then 5 else 0)).
    pose proof (halves_solid c p Hc) as Hs. destruct (halves_cons c p Hc Hp) as (t0 & ts & Eh & _). rewrite Eh in *. cbn [tl] in Hu.
    inversion Hs as [|? b ? bs Hb Hs' E1 E2]; subst. cbn [tl].
    assert (E : map halves_of (map (fun t => [t]) us) = map (fun b => [b]) bs).
    { clear - Hu Hs'. revert us Hu. induction Hs' as [|d b ts bs Hd Hs IH]; intros us Hu; cbn [map] in Hu; inversion Hu as [|? t ? us' H1 H2]; subst; [reflexivity|].
      cbn [map]. rewrite (IH _ H2). unfold halves_of at 1. cbn [flat_map]. rewrite (Hd t H1). reflexivity. }
    split; [|split; [|split]].
    + rewrite map_app. cbn [map]. rewrite E. cbn [List.app]. f_equal. f_equal. destruct (cfg_bidi c); reflexivity.
    + unfold halves_of. cbn [flat_map]. destruct (half_bit u); cbn; lia.
    + apply Forall_forall. intros l Hl. apply repeat_spec in Hl. auto.
    + apply repeat_length.
  - apply Forall_app. split; [|apply Forall_forall; intros l Hl; apply repeat_spec in Hl; subst l; cbn; lia].
    apply Forall_forall. intros l Hl. apply in_map_iff in Hl. destruct Hl as (t & <- & _). cbn. lia.
Qed.

Lemma emissions_blocks : forall c ps s bss, config_ok c -> Forall (fun p => packet_ok (bytes p)) ps ->
  Forall2 (Forall2 (Forall2 measured)) (emissions c s ps) bss -> Forall2 (block c) ps bss.
Proof.
  intros c ps. induction ps as [|p ps IH]; intros s bss Hc Hps H; cbn [emissions] in H; inversion H as [|? b ? bs H1 H2]; subst; [constructor|].
  inversion Hps as [|? ? Hp Hps']; subst. constructor; [exact (emission_block c p s b Hc Hp H1)|]. eapply IH; eassumption.
Qed.

(** ** How long they take *)

Lemma measured_total : forall xs us, Forall2 measured xs us -> Forall (fun x => 0 <= x < 65536) xs ->
  15 * total (fun x => x) xs <= 16 * total (Z.max 0) us.
Proof.
  intros xs us H. induction H as [|x u xs us Hx H IH]; intros Hr; [cbn; lia|]. inversion Hr as [|? ? Hr1 Hr2]; subst.
  specialize (IH Hr2). cbn [total fold_right]. cbv beta. fold (total (fun x => x) xs) (total (Z.max 0) us).
  unfold measured, off, m16 in Hx. rewrite Z.mod_small in Hx by lia.
  set (A := total _ xs) in *. set (B := total _ us) in *. clearbody A B. lia.
Qed.

Lemma total_add : forall k xs, total (fun x => x) (map (Z.add k) xs) = total (fun x => x + k) xs.
Proof. induction xs as [|x xs IH]; [reflexivity|]. cbn [map total fold_right]. fold (total (fun x => x) (map (Z.add k) xs)) (total (fun x => x + k) xs). lia. Qed.

Lemma halves_small : forall c p, config_ok c -> Forall (fun x => 0 <= x <= 114) (halves c p).
Proof.
  intros c p (H1 & H2 & H3). destruct p; cbn [halves]; unfold packet_halves, idle_halves, half_bits; apply Forall_forall; intros t H;
    apply in_flat_map in H; destruct H as (b & _ & H); destruct b; cbn in H; destruct H as [<-|[<-|[]]]; lia.
Qed.

Lemma tail_small : forall c p, config_ok c -> Forall (fun x => 0 <= x < 65536) (map (Z.add 1) (tl (halves c p))).
Proof.
  intros c p Hc. pose proof (halves_small c p Hc) as H. rewrite Forall_map. destruct (halves c p); cbn [tl]; [constructor|].
  apply Forall_inv_tail in H. eapply Forall_impl; [|exact H]. intros x Hx. cbn in Hx. lia.
Qed.

(** With [W] no longer than from the end of a packet to the end of the next one *)
Lemma emissions_enough : forall c W ps s bss w, config_ok c -> Forall (fun p => packet_ok (bytes p)) ps ->
  16 * W <= 15 * shortest_on_wires c -> 0 <= w ->
  (W <= w \/ s = hd 0 (halves c (hd None ps)) + (if cfg_bidi c then 477 else 1)) ->
  Forall2 (Forall2 (Forall2 measured)) (emissions c s ps) bss -> enough (Z.max 0) c W w ps bss.
Proof.
  intros c W ps. induction ps as [|p ps IH]; intros s bss w Hc Hps HW Hw Hs H; cbn [emissions] in H;
    inversion H as [|? b ? bs H1 H2]; subst; [exact Logic.I|]. inversion Hps as [|? ? Hp Hps']; subst.
  apply emission_parts in H1. destruct H1 as (u & us & -> & Hu & Hus). cbn [enough].
  assert (Hl : length (halves c p) = length (map (fun t : Z => [t]) (u :: us))).
  { rewrite map_length. cbn [length]. destruct (halves_cons c p Hc Hp) as (t0 & ts & Eh & _). rewrite Eh in *. cbn [tl length] in *.
    clear - Hus. revert us Hus. induction ts as [|t ts IH]; intros us H; cbn [map] in H; inversion H; subst; [reflexivity|].
    cbn [length]. f_equal. apply IH. assumption. }
  rewrite firstn_app, skipn_app, Hl, Nat.sub_diag, firstn_O, app_nil_r, firstn_all, skipn_all, concat_singles. cbn [List.app skipn].
  replace (concat (repeat [] (if cfg_bidi c then 5 else 0))) with (@nil Z) by (destruct (cfg_bidi c); reflexivity).
  split; [|apply (IH _ _ 0 Hc Hps' HW ltac:(lia) (or_intror eq_refl) H2)].
  assert (Hpos : 0 <= total (Z.max 0) (u :: us)) by (apply total_pos; intros; lia).
  destruct Hs as [Hs| ->]; [lia|]. cbn [hd] in *. 
  pose proof (measured_total _ _ Hus (tail_small c p Hc)) as Ht. rewrite total_add in Ht.
  pose proof (halves_total c p (fun x => x + 1) Hc Hp ltac:(intros; lia)) as Hh.
  pose proof (halves_small c p Hc) as Hsm. destruct (halves_cons c p Hc Hp) as (t0 & ts & Eh & _). rewrite Eh in *. cbn [tl hd] in *.
  apply Forall_inv in Hsm. cbn [total fold_right] in *. fold (total (fun x => x + 1) ts) (total (Z.max 0) us) in *.
  unfold measured, off, m16 in Hu. rewrite Z.mod_small in Hu by (destruct (cfg_bidi c); lia).
  unfold shortest_on_wires in HW. cbv beta in Hh.
  change (58 + 1) with 59 in Hh. change (100 + 1) with 101 in Hh.
  set (A := total _ ts) in *. set (B := total _ us) in *. clearbody A B. destruct (cfg_bidi c); lia.
Qed.

(** The same counted in durations: 90 half bits at least *)
Lemma emissions_enough_count : forall c ps s bss w, config_ok c -> Forall (fun p => packet_ok (bytes p)) ps -> 0 <= w ->
  Forall2 (Forall2 (Forall2 measured)) (emissions c s ps) bss -> enough (fun _ => 1) c 90 w ps bss.
Proof.
  intros c ps. induction ps as [|p ps IH]; intros s bss w Hc Hps Hw H; cbn [emissions] in H;
    inversion H as [|? b ? bs H1 H2]; subst; [exact Logic.I|]. inversion Hps as [|? ? Hp Hps']; subst.
  apply emission_parts in H1. destruct H1 as (u & us & -> & Hu & Hus). cbn [enough].
  assert (Hl : length (halves c p) = length (map (fun t : Z => [t]) (u :: us))).
  { rewrite map_length. cbn [length]. destruct (halves_cons c p Hc Hp) as (t0 & ts & Eh & _). rewrite Eh in *. cbn [tl length] in *.
    clear - Hus. revert us Hus. induction ts as [|t ts IH]; intros us H; cbn [map] in H; inversion H; subst; [reflexivity|].
    cbn [length]. f_equal. apply IH. assumption. }
  pose proof (halves_total c p (fun _ => 1) Hc Hp ltac:(intros; lia)) as Hh.
  assert (Ht : forall l, total (fun _ => 1) l = Z.of_nat (length l)).
  { induction l as [|x l IHl]; [reflexivity|]. cbn [total fold_right length]. fold (total (fun _ => 1) l). lia. }
  rewrite firstn_app, skipn_app, Hl, Nat.sub_diag, firstn_O, app_nil_r, firstn_all, skipn_all, concat_singles. cbn [List.app skipn].
  replace (concat (repeat [] (if cfg_bidi c then 5 else 0))) with (@nil Z) by (destruct (cfg_bidi c); reflexivity).
  split; [|apply (IH _ _ 0 Hc Hps' ltac:(lia) H2)]. rewrite Ht in *. rewrite Hl, map_length in Hh. destruct Hc as (C1 & _). lia.
Qed.

(** ** The decoder *)

(** What a decoder board receives of a station, [since] ticks after it was switched on *)
Definition follows (c : tx_config) (since : Z) (h : list entry) (dos : list op) : Prop := exists ts,
  Forall2 (off 16) (captured since (ticks h)) ts /\ filter is_receive dos = map OReceive ts.

Lemma wires_audible : forall c h since dos, config_ok c -> history_ok c h -> Forall packet_ok (queued h) ->
  follows c since h dos -> ~ In ODisable dos ->
  audible (half_bits_in dos) (finished c (None :: started h) (length (ticks h) - 1)) /\
  (awake 16 c dos -> never_full dos listener0 /\ (length (l_queue (listen_all dos listener0)) <= 1)%nat).
Proof.
  intros c h since dos Hc Hh Hpk (ts & Hts & Hdos) Hnd. destruct (history_halves c h Hc Hh Hpk) as [_ Hok].
  destruct (ticks_prefix c h Hh) as (rest & Hrest). unfold track in Hrest. set (ps := started h) in *.
  assert (Hn : (length (ticks h) <= length (flat_map (on_track c) (None :: ps)))%nat) by (rewrite <- Hrest, app_length; lia).
  replace (ticks h) with (firstn (length (ticks h)) (flat_map (on_track c) (None :: ps))) in Hts
    by (rewrite <- Hrest, firstn_app, Nat.sub_diag, firstn_O, app_nil_r; apply firstn_all).
  destruct (measured_track c ps None since _ ts Hc Hok Hn Hts) as (g & s & bss & Hg & Hb & Ets).
  pose proof (emissions_blocks c (None :: ps) s bss Hc Hok Hb) as Hbl.
  pose proof (ts_of_receives _ _ Hdos) as Ht. rewrite Ets in Ht. split.
  - rewrite halves_ts, Ht. apply (stream_audible (fun _ => 1) ltac:(intros; lia)); assumption.
  - intros [Hex|(W & HW & Hex)].
    + apply (stream_paced (fun _ => 1) ltac:(intros; lia) c 90 (None :: ps) bss g (length (ticks h) - 1) dos); auto; try lia.
      * apply (emissions_enough_count c _ s); auto; lia.
      * apply (attentive_every 90); [exact Hex|lia].
    + assert (Hp : Forall (fun t => 0 <= t) (ts_of dos)).
      { rewrite (ts_of_receives _ _ Hdos). clear - Hts. induction Hts as [|d t l l' Hd Hts IH]; constructor; [|exact IH]. unfold off in Hd. lia. }
      assert (HW0 : 0 < W).
      { destruct (Z.lt_ge_cases 0 W) as [H|H]; [exact H|]. destruct (Hex [] [] dos eq_refl ltac:(cbn; lia)). }
      apply (stream_paced (Z.max 0) ltac:(intros; lia) c W (None :: ps) bss g (length (ticks h) - 1) dos); auto; try lia.
      * apply (emissions_enough c W _ s); auto; lia.
      * apply attentive_within; assumption.
Qed.

Section Wired.
  Context {I : Type} (E : Env I) (m : I -> Z -> Z) (able : access -> Prop) (time : I -> Z)
    (Hk : keeps_cvs able E m) (HE : short_cv1 E) (HC : clock E time).

  Lemma wires_known : forall c h since i dos, 0 <= time i -> config_ok c -> history_ok c h ->
    (forall bs, In bs (queued h) -> packet_ok bs /\ complete bs) ->
    follows c since h dos -> ~ In ODisable dos -> awake 16 c dos -> on_time dos ->
    exists s es, run E (OInit :: dos) (st0 i) = Ok (tt, s, es) /\ logons dos listener0 = [] /\
      finished c (None :: started h) (length (ticks h) - 1) = SpecRx.taken dos listener0 ++ r_deque (rxs s) /\
      (length (r_deque (rxs s)) <= 1)%nat.
  Proof.
    intros c h since i dos Hi Hc Hh Hq Hf Hnd Hex Hon.
    assert (Hq1 : Forall packet_ok (queued h)) by (apply Forall_forall; intros bs Hb; apply (Hq bs Hb)).
    destruct (wires_audible c h since dos Hc Hh Hq1 Hf Hnd) as [Ha Hpace]. destruct (Hpace Hex) as [Hnf Hle].
    destruct (audible_run E time HE HC i dos _ Hi Ha) as (s & es & Hrun & Hlo & _ & Hfin & Hqu); auto.
    { assert (Hid : complete [0xFF; 0; 0xFF]) by (exact (generated_complete _ gen_idle)).
      apply Forall_forall. intros p Hp. apply finished_In in Hp. cbn [map] in Hp. destruct Hp as [<-|Hp]; [split; [exact Hid|reflexivity]|].
      apply in_map_iff in Hp. destruct Hp as (q & <- & Hp). destruct q as [bs|]; [|split; [exact Hid|reflexivity]].
      cbn [bytes]. pose proof (started_queued c h bs Hh Hp) as Hb. destruct (Hq bs Hb) as [H1 H2]. split; [exact H2|]. exact (proj2 (proj2 (proj2 H1))). }
    exists s, es. split; [exact Hrun|]. split; [exact Hlo|]. split; [exact Hfin|]. rewrite Hqu. exact Hle.
  Qed.

  (** Any calls: the decoder board obeys the packets finished one interval earlier *)
  Theorem wires_obeyed : forall c ops i, 0 <= time i -> config_ok c -> Forall plain_op ops ->
    (forall bs, In (TBytes bs) ops -> packet_ok bs /\ complete bs) ->
    exists h xs tx, tx_run (TInit c :: ops) (tx_init_state 4) = Ok ((None, []) :: xs, tx) /\
    flat_map call_of h = ops /\ flat_map result_of h = xs /\ history_ok c h /\
    forall since ts dos, Forall2 (off 16) (captured since (intervals xs)) ts -> filter is_receive dos = map OReceive ts ->
      ~ In ODisable dos -> awake 16 c dos -> on_time dos ->
      exists s es done left, run E (OInit :: dos) (st0 i) = Ok (tt, s, es) /\
        finished c (None :: started h) (length (ticks h) - 1) = done ++ left /\ (length left <= 1)%nat /\
        let x := obey_all (e_east_west E) done (new_view (m i)) in
        Forall (allowed able) (snd x) ->
        seen_in es = snd x /\ (forall a, m (Rx.app s) a = v_cvs (fst x) a) /\
        in_service s = v_service (fst x) /\ page s = v_page (fst x).
  Proof.
    intros c ops i Hi Hc Hops Hpk. destruct (tx_history c ops Hc Hops) as (xs & tx & h & Htx & Hcall & Hres & Hh).
    exists h, xs, tx. split; [exact Htx|]. split; [exact Hcall|]. split; [exact Hres|]. split; [exact Hh|].
    intros since ts dos Hts Hdos Hnd Hex Hon. rewrite <- Hres, intervals_ticks in Hts.
    assert (Hq : forall bs, In bs (queued h) -> packet_ok bs /\ complete bs).
    { intros bs Hb. apply Hpk. rewrite <- Hcall. apply queued_calls. exact Hb. }
    destruct (wires_known c h since i dos Hi Hc Hh Hq (ex_intro _ ts (conj Hts Hdos)) Hnd Hex Hon) as (s & es & Hrun & Hlo & Hfin & Hle).
    exists s, es, (SpecRx.taken dos listener0), (r_deque (rxs s)). split; [exact Hrun|].
    split; [exact Hfin|]. split; [exact Hle|]. exact (layout E m able Hk dos i s es Hrun Hlo).
  Qed.

  (** Orders given at leisure *)
  Theorem wires_done : forall c os pss ks k0 n i, 0 <= time i -> config_ok c -> Forall order_ok os -> Forall2 packets_for os pss ->
    length ks = length os -> Forall (fun k => (782 < k)%nat) ks -> (783 < n)%nat ->
    Forall (allowed able) (snd (carry_out_all os (m i, None))) ->
    exists xs tx, tx_run (TInit c :: repeat TTransmit k0 ++ flat_map calls (combine pss ks) ++ repeat TTransmit n) (tx_init_state 4)
                  = Ok ((None, []) :: xs, tx) /\
    forall since ts dos, Forall2 (off 16) (captured since (intervals xs)) ts -> filter is_receive dos = map OReceive ts ->
      ~ In ODisable dos -> awake 16 c dos -> on_time dos ->
      exists s es, run E (OInit :: dos) (st0 i) = Ok (tt, s, es) /\
        seen_in es = snd (carry_out_all os (m i, None)) /\
        forall a, m (Rx.app s) a = fst (fst (carry_out_all os (m i, None))) a.
  Proof.
    intros c os pss ks k0 n i Hi Hc Hos Hp Hlen Hks Hn Hal.
    destruct (orders_tracked_behind c os pss ks k0 (n - 1) 1 Hc Hos Hp Hlen Hks ltac:(lia)) as (h & xs & tx & Htx & Hxs & Hh & Hpk & Hall).
    replace (n - 1 + 1)%nat with n in Htx by lia.
    exists xs, tx. split; [exact Htx|]. intros since ts dos Hts Hdos Hnd Hex Hon. rewrite Hxs in Hts.
    destruct (wires_known c h since i dos Hi Hc Hh Hpk (ex_intro _ ts (conj Hts Hdos)) Hnd Hex Hon) as (s & es & Hrun & Hlo & Hfin & Hle).
    exists s, es. split; [exact Hrun|].
    exact (orders_seen E m able Hk dos i s es os pss Hrun Hlo Hos Hp (Hall _ _ Hfin Hle) Hal).
  Qed.
End Wired.
