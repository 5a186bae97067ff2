(** A main loop that keeps to the rules is defined though its calls are interrupted. *)
From Verif Require Import Prelude Address Instruction Checksum Datagram RxState Rx ZBits RxLogic RxInv SpecCodec SpecRx RxBitProofs RxBitProofs2 RxBitProofs3 RxBitProofs4
  SpecExec ExecProofs SpecConf SpecCv CvProofs2 SaneProofs SpecLogon LogonProofs LogonProofs2 LogonProofs3 LogonProofs4
  SpecBidi BidiProofs BidiProofs2 BidiProofs3 BidiProofs4 BidiProofs6 BidiProofs8 BidiProofs9 OfferProofs OfferProofs2 SpecSafe SafeProofs SafeProofs2 Preempt PreemptData SpecPreempt
  PreemptProofs PreemptProofs2 PreemptProofs3 PreemptProofs4 StaleProofs TellProofs TellProofs3 SpecFirm FirmProofs FirmProofs2 FirmProofs3 FirmProofs4 FirmProofs5 FirmProofs6 FirmProofs7
  PreemptLoop SpecLoop LoopProofs LoopProofs2.

Section Ends.
  Context {I : Type} (E : Env I) (HE : short_cv1 E) (time : I -> Z) (HC : clock E time).
  Implicit Types s : st I.
  Notation hold g := (grip time False [] g).

  (** The program ends under interrupts, from [R] with [Q] *)
  Definition ends (R : rx -> Prop) {A} (P : prog (I := I) A) (Q : rx -> Prop) : Prop :=
    forall g w l due s, Forall (Forall handler) w -> by_rules complete (concat w) l due -> base l due s -> hold g s -> R (rxs s) ->
    exists a sn sv s1 es, preempted E P w s = Ok ((a, sn, sv), s1, es) /\ base (listen_all sv l) (owes_all sv l due) s1 /\
      by_rules complete (concat (skipn (length sn) w)) (listen_all sv l) (owes_all sv l due) /\ hold g s1 /\ Q (rxs s1).
  Lemma ends_Done : forall (R : rx -> Prop) A (a : A), ends R (Done a) R.
  Proof. intros R A a g w l due s Hw Hb B G HR. exists a, [], [], s, []. split; [reflexivity|]. auto. Qed.
  Lemma ends_bind : forall (R S Q : rx -> Prop) A C (P : prog A) (k : A -> prog C), ends R P S -> (forall a, ends S (k a) Q) -> ends R (pbind P k) Q.
  Proof.
    intros R S Q A C P k HP Hk g w l due s Hw Hb B G HR. destruct (HP g w l due s Hw Hb B G HR) as (a & sn & sv & s1 & e1 & H1 & B1 & R1 & G1 & S1).
    destruct (Hk a g _ _ _ s1 (handlers_skipn (length sn) _ Hw) R1 B1 G1 S1) as (c & sn2 & sv2 & s2 & e2 & H2 & B2 & R2 & G2 & S2).
    exists c, (sn ++ sn2), (sv ++ sv2), s2, (e1 ++ e2). split; [exact (preempted_then E _ _ _ _ _ _ _ _ _ _ _ _ _ _ _ _ H1 H2)|].
    rewrite listen_all_app, owes_all_app, app_length, skipn_both. auto.
  Qed.
  Lemma ends_act : forall (R Q : rx -> Prop) A B (m : M B) (k : B -> prog A), lasting E R ->
    (forall g l due s, base l due s -> hold g s -> R (rxs s) -> exists b s' es S, m s = Ok (b, s', es) /\ base l due s' /\ hold g s' /\ S (rxs s') /\ ends S (k b) Q) ->
    ends R (Act B m k) Q.
  Proof.
    intros R Q A B m k HL Hm g w l due s Hw Hb Bs G HR. rewrite concat_hd in Hb. apply by_rules_app in Hb. destruct Hb as [B1 B2].
    destruct (handlers_base E time HC False [] _ _ _ _ _ (handlers_hd _ Hw) Bs G B1) as (s1 & e1 & R1 & C1 & G1).
    pose proof (lasting_run E R HL _ _ _ _ (handlers_hd _ Hw) R1 HR) as HR1.
    destruct (Hm g _ _ s1 C1 G1 HR1) as (b & s2 & e2 & S & H2 & C2 & G2 & S2 & K).
    destruct (K g (tl w) _ _ s2 (handlers_tl _ Hw) B2 C2 G2 S2) as (a & sn & sv & s3 & e3 & H3 & C3 & B3 & G3 & S3).
    exists a, (r_deque (rxs s1) :: sn), (hd [] w ++ sv), s3, (e1 ++ e2 ++ e3). split; [exact (preempted_act E _ _ _ _ _ _ _ _ _ _ _ _ _ _ _ _ R1 H2 H3)|].
    rewrite listen_all_app, owes_all_app. split; [exact C3|]. split; [|auto].
    cbn [length]. replace (skipn (Datatypes.S (length sn)) w) with (skipn (length sn) (tl w)) by (destruct w; [rewrite !skipn_nil; reflexivity|reflexivity]). exact B3.
  Qed.
  Lemma ends_rd : forall (R : rx -> Prop) X (S : X -> rx -> Prop) (Q : rx -> Prop) A (f : rx -> X) (k : X -> prog A), lasting E R ->
    (forall r, R r -> S (f r) r) -> (forall r, R r -> ends (S (f r)) (k (f r)) Q) -> ends R (pbind (rd f) k) Q.
  Proof.
    intros R X S Q A f k HL H1 H2. apply ends_act; [exact HL|]. intros g l due s B G HR. exists (f (rxs s)), s, [], (S (f (rxs s))). split; [reflexivity|]. auto.
  Qed.
  Lemma ends_wr : forall (R Q : rx -> Prop) f, lasting E R -> (forall r, core (f r) = core r) -> (forall r, logon_view (f r) = logon_view r) -> (forall r, times (f r) = times r) ->
    (forall r, sane r -> sane (f r)) -> (forall r, R r -> stocked (f r) /\ Q (f r)) -> ends R (wr f) Q.
  Proof.
    intros R Q f HL H1 H2 H3 H4 H5. apply ends_act; [exact HL|]. intros g l due s ([HR Hst Hw Hh] & Hs & Hq) (G1 & G2 & G3) Hr. destruct (H5 _ Hr) as [K1 K2].
    exists tt, (Mk_st (f (rxs s)) (app s) (pending s)), [], Q. split; [reflexivity|]. split; [|split; [|split; [exact K2|apply ends_Done]]].
    - split; [constructor|split; [exact (H4 _ Hs)|exact Hq]].
      + apply (Rl_core l s); [apply H1|exact HR].
      + exact K1.
      + apply (owing_view due s); [apply H2|exact Hw].
      + specialize (H1 (rxs s)). unfold core in H1. injection H1 as H1 _. exact (held_ear _ _ H1 Hh).
    - split; [intros []|]. split; [cbn [rxs]; rewrite H3; exact G2|exact G3].
  Qed.
  Lemma ends_local : forall (R Q : rx -> Prop) X A (m : res X) (k : X -> prog A) x, m = Ok x -> ends R (k x) Q -> ends R (pbind (local m) k) Q.
  Proof. intros R Q X A m k x -> H. exact H. Qed.
  Lemma ends_pre : forall (R R' Q : rx -> Prop) A (P : prog A), (forall r, R r -> R' r) -> ends R' P Q -> ends R P Q.
  Proof. intros R R' Q A P H H1 g w l due s Hw Hb B G HR. exact (H1 g w l due s Hw Hb B G (H _ HR)). Qed.

  Definition fed (r : rx) : Prop := talk r /\ fair r.
  Definition roomed (r : rx) : Prop := spare r /\ fair r.
  Lemma lasting_fed : lasting E fed. Proof. exact (lasting_fair E talk (lasting_talk E)). Qed.
  Lemma lasting_roomed : lasting E roomed. Proof. exact (lasting_fair E spare (lasting_spare E)). Qed.
  Ltac sn := let r := fresh "r" in let Hr := fresh "Hr" in intros r Hr; open_sane Hr; unfold sane; cbn; close_sane; auto.

  Lemma ends_push : forall d x, byte d -> 0 <= x < 64 -> ends fed (dyn_pushP d x) fed.
  Proof.
    intros d x Hd Hx. unfold dyn_pushP, fullP. apply (ends_rd _ _ (fun _ => fed)); [apply lasting_fed|auto|]. intros r _. destruct (negb _); [apply ends_Done|].
    apply (ends_rd _ _ (fun b => if b : bool then fed else roomed)); [apply lasting_fed| |].
    { intros r0 [H0 H1]. change rx_bidi_deque_size with 7%nat. destruct (Nat.eqb_spec (length (dyn_deque (r_bidi r0))) 7); [split; assumption|]. split; [|exact H1]. split; [exact H0|]. open_talk H0. lia. }
    intros r0 _. destruct (_ =? _)%nat; [apply ends_Done|].
    unfold byte in Hd. destruct (id_carries B18 7 (64 * d + x)) as (cs & C1 & C2); [lia|change (2 ^ id_bits B18) with 16384; lia|].
    apply ends_local with cs.
    { rewrite Z.shiftl_mul_pow2, lor_add by (change (2 ^ 6) with 64; lia). replace (d * 2 ^ 6 + x) with (64 * d + x) by (change (2 ^ 6) with 64; lia). exact C1. }
    apply id_shaped in C1. change (datagram_size B18) with 3%nat in C1.
    apply ends_wr; [apply lasting_roomed|reflexivity|reflexivity|reflexivity|sn|]. intros r1 [[H0 H1] H2].
    assert (T : talk (set_dyn_deque (dyn_deque (r_bidi r1) ++ [cs]) r1)).
    { open_talk H0. unfold talk. cbn. close_talk; [apply Forall_app; split; [assumption|]; constructor; [exact C1|constructor]|rewrite app_length; cbn [length]; lia]. }
    split; [exact (talk_stocked _ T)|]. split; [exact T|exact H2].
  Qed.
  Lemma ends_all : forall ds, Forall in_range ds -> ends fed (dyn_allP ds) fed.
  Proof.
    induction ds as [|a ds IH]; intros Hr; [apply ends_Done|]. inversion Hr as [|? ? Ha Hr']; subst. destruct (convert_point a Ha) as (Hc & Hb & Hx).
    cbn [dyn_allP]. rewrite Hc. apply (ends_bind _ fed); [apply ends_push; assumption|intros _; exact (IH Hr')].
  Qed.
  Lemma ends_datagram : forall ds, Forall in_range ds -> ends fed (datagramP ds) fed.
  Proof.
    assert (B : forall b, ends fed (wr (set_block_dyn b)) fed).
    { intros b. apply ends_wr; [apply lasting_fed|reflexivity|reflexivity|reflexivity|sn|]. intros r [H1 H2]. split; [exact (talk_stocked _ H1)|split; [exact H1|exact H2]]. }
    intros ds Hr. unfold datagramP, fullP, emptyP.
    apply (ends_rd _ _ (fun _ => fed)); [apply lasting_fed|auto|]. intros r _. apply (ends_bind _ fed).
    - destruct (_ =? _)%nat; [apply B|]. apply (ends_rd _ _ (fun _ => fed)); [apply lasting_fed|auto|]. intros r1 _. destruct (_ =? _)%nat; [|apply ends_Done].
      apply (ends_bind _ fed); [apply B|intros _]. apply (ends_rd _ _ (fun _ => fed)); [apply lasting_fed|auto|]. intros r2 [_ H2]. apply ends_push; [exact H2|lia].
    - intros _. apply (ends_rd _ _ (fun _ => fed)); [apply lasting_fed|auto|]. intros r1 _. destruct (block_dyn _); [apply ends_Done|apply ends_all; exact Hr].
  Qed.

  Lemma world_hold : forall l due s, world time l due s -> hold (last_time s, wake_time s, time (app s)) s /\ in_order (last_time s, wake_time s, time (app s)).
  Proof. intros l due s [HR _ Ho _ _ _ _ Hq]. split; [split; [intros []|split; [reflexivity|cbn; lia]]|exact Ho]. Qed.
  Lemma hold_order : forall g s, in_order g -> hold g s -> ordered time s.
  Proof.
    intros [[lp tp] t] s Hg (_ & T & A). unfold ordered, wake_time, last_time. unfold times in T. injection T as T1 T2. unfold in_order in Hg. cbn [fst snd] in *. rewrite T1, T2. lia.
  Qed.
  Lemma easy_callback : forall i v, easy time False [] (callbackP E i v).
  Proof.
    intros i v. unfold callbackP. apply (easy_apart time False [] _ _ _ (fun _ => True)).
    - intros s. exists (nth_error (pending s) i), (app s), (pending s), []. split; [destruct s; reflexivity|]. split; [lia|exact Logic.I].
    - intros [c|] _; [apply (easy_run_cb E time HC)|apply easy_Done].
  Qed.
  Lemma task_ends : forall t w l due s, t <> TExecute -> task_by_rules t -> Forall (Forall handler) w -> by_rules complete (concat w) l due -> world time l due s ->
    exists o s' es, preempted E (taskP E t) w s = Ok (o, s', es) /\ base (listen_all (served o) l) (owes_all (served o) l due) s' /\ ordered time s'.
  Proof.
    intros t w l due s Hn Ht Hw Hb W. destruct (world_hold _ _ _ W) as [G Hg].
    assert (K : forall A (P : prog A), easy time False [] P -> exists o s' es, preempted E (pbind P (fun _ => Done false)) w s = Ok (o, s', es) /\ base (listen_all (served o) l) (owes_all (served o) l due) s' /\ ordered time s').
    { intros A P HP. assert (HP' : easy time False [] (pbind P (fun _ => Done false))) by (apply easy_bind; [exact HP|intros _; apply easy_Done]).
      destruct (sure_ends E time HC False [] _ _ _ _ (HP' _ Hg) w l due s Hw Hb (world_base _ _ _ _ W) G) as (a & sn & sv & s1 & es & g' & H & C & _ & G' & -> & _).
      exists (a, sn, sv), s1, es. split; [exact H|]. split; [exact C|exact (hold_order _ _ Hg G')]. }
    destruct t as [| |ds|i v]; cbn [taskP].
    - congruence.
    - apply K, (easy_init E HE time HC).
    - destruct W as [HR Hs Ho Hta Hf Hwi Hh Hq].
      assert (D : ends fed (pbind (datagramP ds) (fun _ => Done false)) fed) by (apply (ends_bind _ fed); [apply ends_datagram; exact Ht|intros _; apply ends_Done]).
      destruct (D _ w l due s Hw Hb (conj (Build_calm _ _ _ HR (talk_stocked _ Hta) Hwi Hh) (conj Hs Hq)) G (conj Hta Hf)) as (a & sn & sv & s1 & es & H & C & _ & G' & _).
      exists (a, sn, sv), s1, es. split; [exact H|]. split; [exact C|exact (hold_order _ _ Hg G')].
    - apply K, easy_callback.
  Qed.
  Lemma task_world : forall t w l due s, task_by_rules t -> Forall (Forall handler) w -> by_rules complete (concat w) l due -> world time l due s ->
    exists o s' es, preempted E (taskP E t) w s = Ok (o, s', es) /\ world time (round [] t o l) (owes_all (served o) l due) s'.
  Proof.
    intros t w l due s Ht Hw Hb W. assert (D : {t = TExecute} + {t <> TExecute}) by (destruct t; [left; reflexivity|right; discriminate..]).
    destruct D as [-> | Hn].
    { destruct (torn_world E HE time HC w l due s Hw Hb W) as (o & s' & es & H & W'). exists o, s', es. split; [exact H|exact W']. }
    destruct (task_ends t w l due s Hn Ht Hw Hb W) as (o & s' & es & H & ([B1 B2 B3 B4] & B5 & B6) & Ho). exists o, s', es. split; [exact H|].
    assert (R : round [] t o l = listen_all (served o) l) by (destruct t; [congruence|reflexivity..]). rewrite R. constructor; try assumption.
    - exact (proj1 (triple_task E t w s o s' es Hw H (w_talk _ _ _ _ W))).
    - exact (fair_acts E _ _ (fair_task E t) _ _ _ _ _ H (w_fair _ _ _ _ W)).
  Qed.

  Definition loop_rules_from (l : listener) (due : bool) s (ts : loop_plan) : Prop :=
    forall ts1 t ts2 outs s' es, ts = ts1 ++ t :: ts2 -> mainloop E ts1 s = Ok (outs, s', es) ->
    round_by_rules complete t (loop_listened ts1 outs l) (loop_due ts1 outs l due).
  Lemma loop_world : forall ts l due s, world time l due s -> loop_rules_from l due s ts ->
    exists outs s' es, mainloop E ts s = Ok (outs, s', es) /\ world time (loop_listened ts outs l) (loop_due ts outs l due) s'.
  Proof.
    induction ts as [|[[os t] w] ts IH]; intros l due s W Hr; [exists [], s, []; split; [reflexivity|exact W]|].
    pose proof (Hr [] (os, t, w) ts [] s [] eq_refl eq_refl) as (T1 & T0 & T2 & T3). cbn [loop_listened loop_due] in T1, T2, T3.
    destruct (run_firm E HE time HC os l s due W T1) as (s1 & e1 & R1 & W1).
    destruct (task_world t w _ _ s1 T0 T2 T3 W1) as (o & s2 & e2 & R2 & W2). change (round [] t o (listen_all os l)) with (round os t o l) in W2.
    destruct (IH _ _ s2 W2) as (outs & s3 & e3 & R3 & W3).
    { intros ts1 t' ts2 outs s' es Hts Hse. subst ts.
      refine (Hr ((os, t, w) :: ts1) t' ts2 (o :: outs) s' (e1 ++ e2 ++ es) eq_refl _). cbn [mainloop]. unfold bind. rewrite R1, R2, Hse. unfold ret. rewrite app_nil_r. reflexivity. }
    exists (o :: outs), s3, (e1 ++ e2 ++ e3). split; [|exact W3]. cbn [mainloop]. unfold bind. rewrite R1, R2, R3. unfold ret. rewrite app_nil_r. reflexivity.
  Qed.
  Theorem loop_defined : forall ts i, 0 <= time i -> loop_by_rules E complete ts i ->
    exists outs s es, mainloop E ts (st0 i) = Ok (outs, s, es).
  Proof.
    intros ts i Hi Hr. destruct (loop_world ts listener0 false (st0 i) (world_0 time i Hi) Hr) as (outs & s & es & H & _). eauto.
  Qed.
  Theorem loop_generated : forall ts i, 0 <= time i -> loop_by_rules E generated ts i ->
    exists outs s es, mainloop E ts (st0 i) = Ok (outs, s, es).
  Proof.
    intros ts i Hi Hr. apply (loop_defined ts i Hi). intros ts1 [[os t] w] ts2 outs s es H1 H2. destruct (Hr _ _ _ _ _ _ H1 H2) as (K1 & K2 & K3 & K4).
    split; [exact (by_rules_weaken _ _ generated_complete _ _ _ K1)|]. split; [exact K2|]. split; [exact K3|exact (by_rules_weaken _ _ generated_complete _ _ _ K4)].
  Qed.
End Ends.

Section Room.
  Context {I : Type} (E : Env I).
  Implicit Types s : st I.
  Lemma loop_talk : forall ts s outs s' es, Forall (fun t => Forall (Forall handler) (snd t)) ts -> mainloop E ts s = Ok (outs, s', es) -> talk (rxs s) -> talk (rxs s').
  Proof.
    induction ts as [|[[os t] w] ts IH]; intros s outs s' es Hw H Hs; [inversion H; subst; exact Hs|]. inversion Hw as [|? ? Hw1 Hw2]; subst. cbn [snd] in Hw1.
    cbn [mainloop] in H. apply bind_inv in H. destruct H as ([] & s1 & e1 & f1 & H1 & H & ->).
    apply bind_inv in H. destruct H as (o & s2 & e2 & f2 & H2 & H & ->).
    apply bind_inv in H. destruct H as (x & s3 & e3 & f3 & H3 & H & ->). inversion H; subst; clear H.
    apply (IH _ _ _ _ Hw2 H3). apply (proj1 (triple_task E t w s1 o s2 e2 Hw1 H2 (holds_run E talk (talk_step E) _ _ _ _ _ H1 Hs))).
  Qed.
  Theorem loop_room : forall ts i outs s0 e0 os s e1 t w o s' es,
    Forall (fun t => Forall (Forall handler) (snd t)) ts -> mainloop E ts (st0 i) = Ok (outs, s0, e0) ->
    run E os s0 = Ok (tt, s, e1) -> Forall (Forall handler) w -> preempted E (taskP E t) w s = Ok (o, s', es) ->
    Forall roomy (passed E (taskP E t) w s).
  Proof.
    intros ts i outs s0 e0 os s e1 t w o s' es Ht H0 H1 Hw H.
    pose proof (loop_talk _ _ _ _ _ Ht H0 (talk_0 i)) as T0. pose proof (holds_run E talk (talk_step E) _ _ _ _ _ H1 T0) as T1.
    eapply Forall_impl; [|exact (proj2 (triple_task E t w s o s' es Hw H T1))]. intros x. apply talk_roomy.
  Qed.
End Room.
