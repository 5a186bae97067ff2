(** Sessions that keep to the rules are defined. *)
From Verif Require Import Prelude Address Instruction Checksum Datagram RxState Rx ZBits RxLogic RxInv SpecCodec SpecRx RxBitProofs RxBitProofs2 RxBitProofs3 RxBitProofs4
  SpecExec ExecProofs SpecConf SpecCv CvProofs2 SaneProofs SpecLogon LogonProofs LogonProofs2 LogonProofs3 LogonProofs4
  SpecBidi BidiProofs BidiProofs2 BidiProofs3 BidiProofs4 BidiProofs6 BidiProofs8 BidiProofs9 OfferProofs SpecSafe SafeProofs SafeProofs2 Preempt SpecPreempt
  PreemptProofs PreemptProofs2 PreemptProofs3 PreemptProofs4 StaleProofs TellProofs TellProofs3 SpecFirm FirmProofs FirmProofs2 FirmProofs3 FirmProofs4 FirmProofs5 FirmProofs6.

Section Session.
  Context {I : Type} (E : Env I).
  Implicit Types s : st I.

  Lemma fair_acts : forall A (P : prog A), acts (fun B m => holds fair m) P -> forall w s o s' es,
    preempted E P w s = Ok (o, s', es) -> fair (rxs s) -> fair (rxs s').
  Proof.
    intros A P. induction P as [a|B m k IH]; intros HP w s o s' es H Hs; [inversion H; subst; exact Hs|].
    destruct HP as [Hm HP]. apply preempted_inv in H. destruct H as (s1 & e1 & b & s2 & e2 & a & sn & sv & e3 & H1 & H2 & H3 & _).
    apply (IH b (HP b) _ _ _ _ _ H3), (Hm _ _ _ _ H2), (holds_run E fair (fair_step E) _ _ _ _ _ H1 Hs).
  Qed.
  Ltac fr := first [apply fair_keeps; solve [leaf_keeps]|apply holds_modify; intros ? _; unfold fair, byte, u8; cbn; apply Z.mod_pos_bound; reflexivity].
  Lemma fair_init : acts (fun B (m : M (I := I) B) => holds fair m) (initP E). Proof. acts_tac; fr. Qed.
  Lemma fair_execute' : acts (fun B (m : M (I := I) B) => holds fair m) (executeP E).
  Proof.
    assert (Pop : holds fair (@popFront I)).
    { apply fair_keeps. unfold popFront. apply keeps_bind; [apply keeps_get|intro r]. destruct (r_deque r); [apply keeps_fail|apply keeps_modify; reflexivity]. }
    repeat lazymatch goal with |- acts _ (initP _) => apply fair_init | _ => acts1 end; first [exact Pop|fr].
  Qed.

  Section Rules.
    Context (HE : short_cv1 E) (time : I -> Z) (HC : clock E time).

    Lemma torn_world : forall w l due s, Forall (Forall handler) w -> by_rules complete (concat w) l due -> world time l due s ->
      exists o s' es, preempted E (executeP E) w s = Ok (o, s', es) /\ world time (without_first o (listen_all (served o) l)) (owes_all (served o) l due) s'.
    Proof.
      intros w l due s Hw Hb W. destruct (execute_sure E HE time HC w l due s Hw Hb W) as (o & s' & es & H & K1 & K2 & K3 & K4 & K5).
      exists o, s', es. split; [exact H|]. pose proof W as [HR Hs Ho Ht Hf Hw' Hhe Hq].
      destruct (torn_execute E w l s o s' es (handlers_interrupting _ Hw) HR H) as (_ & _ & HR' & _).
      constructor; try assumption.
      - exact (proj1 (triple_execute E w s o s' es Hw H Ht)).
      - exact (fair_acts _ _ fair_execute' _ _ _ _ _ H Hf).
      - unfold without_first. destruct (worked_on o); [|exact K5]. cbn [l_queue].
        destruct (l_queue (listen_all (served o) l)); [constructor|]. inversion K5; assumption.
    Qed.

    Definition rules_from (l : listener) (due : bool) s (ts : session_plan) : Prop :=
      forall ts1 t ts2 outs s' es, ts = ts1 ++ t :: ts2 -> session E ts1 s = Ok (outs, s', es) ->
      turn_by_rules complete t (all_listened ts1 outs l) (all_due ts1 outs l due).
    Lemma session_world : forall ts l due s, world time l due s -> rules_from l due s ts ->
      exists outs s' es, session E ts s = Ok (outs, s', es) /\ world time (all_listened ts outs l) (all_due ts outs l due) s'.
    Proof.
      induction ts as [|[os w] ts IH]; intros l due s W Hr; [exists [], s, []; split; [reflexivity|exact W]|].
      pose proof (Hr [] (os, w) ts [] s [] eq_refl eq_refl) as (T1 & T2 & T3). cbn [all_listened all_due] in T1, T2, T3.
      destruct (run_firm E HE time HC os l s due W T1) as (s1 & e1 & R1 & W1).
      destruct (torn_world w _ _ s1 T2 T3 W1) as (o & s2 & e2 & R2 & W2).
      destruct (IH _ _ s2 W2) as (outs & s3 & e3 & R3 & W3).
      { intros ts1 t ts2 outs s' es Hts Hse. subst ts.
        refine (Hr ((os, w) :: ts1) t ts2 (o :: outs) s' (e1 ++ e2 ++ es) eq_refl _). cbn [session]. unfold bind. rewrite R1, R2, Hse. unfold ret. rewrite app_nil_r. reflexivity. }
      exists (o :: outs), s3, (e1 ++ e2 ++ e3). split; [|exact W3]. cbn [session]. unfold bind. rewrite R1, R2, R3. unfold ret. rewrite app_nil_r. reflexivity.
    Qed.
    Theorem session_defined : forall ts i, 0 <= time i -> session_by_rules E complete ts i ->
      exists outs s es, session E ts (st0 i) = Ok (outs, s, es).
    Proof.
      intros ts i Hi Hr. destruct (session_world ts listener0 false (st0 i) (world_0 time i Hi) Hr) as (outs & s & es & H & _). eauto.
    Qed.
    Lemma turn_weaken : forall (P Q : list Z -> Prop), (forall p, P p -> Q p) -> forall t l due, turn_by_rules P t l due -> turn_by_rules Q t l due.
    Proof.
      intros P Q H [os w] l due (H1 & H2 & H3). split; [exact (by_rules_weaken _ _ H _ _ _ H1)|]. split; [exact H2|exact (by_rules_weaken _ _ H _ _ _ H3)].
    Qed.
    Theorem session_generated : forall ts i, 0 <= time i -> session_by_rules E generated ts i ->
      exists outs s es, session E ts (st0 i) = Ok (outs, s, es).
    Proof.
      intros ts i Hi Hr. apply (session_defined ts i Hi). intros ts1 t ts2 outs s es H1 H2. exact (turn_weaken _ _ generated_complete _ _ _ (Hr _ _ _ _ _ _ H1 H2)).
    Qed.
  End Rules.

  Lemma talk_roomy : forall s, talk (rxs s) -> roomy s.
  Proof.
    intros s H. open_talk H.
    assert (K : forall n q, Forall (shaped n) q -> sized n q) by (intros n q Hq; eapply Forall_impl; [|exact Hq]; intros d [Hd _]; exact Hd).
    unfold roomy. cbv zeta. repeat split; auto; lia.
  Qed.
  Lemma session_talk : forall ts s outs s' es, Forall (fun t => Forall (Forall handler) (snd t)) ts -> session E ts s = Ok (outs, s', es) -> talk (rxs s) -> talk (rxs s').
  Proof.
    induction ts as [|[os w] ts IH]; intros s outs s' es Hw H Hs; [inversion H; subst; exact Hs|]. inversion Hw as [|? ? Hw1 Hw2]; subst. cbn [snd] in Hw1.
    cbn [session] in H. apply bind_inv in H. destruct H as ([] & s1 & e1 & f1 & H1 & H & ->).
    apply bind_inv in H. destruct H as (o & s2 & e2 & f2 & H2 & H & ->).
    apply bind_inv in H. destruct H as (x & s3 & e3 & f3 & H3 & H & ->). inversion H; subst; clear H.
    apply (IH _ _ _ _ Hw2 H3). apply (proj1 (triple_execute E w s1 o s2 e2 Hw1 H2 (holds_run E talk (talk_step E) _ _ _ _ _ H1 Hs))).
  Qed.
  Theorem session_room : forall ts i outs s0 e0 os s e1 w o s' es,
    Forall (fun t => Forall (Forall handler) (snd t)) ts -> session E ts (st0 i) = Ok (outs, s0, e0) ->
    run E os s0 = Ok (tt, s, e1) -> Forall (Forall handler) w -> preempted E (executeP E) w s = Ok (o, s', es) ->
    Forall roomy (passed E (executeP E) w s).
  Proof.
    intros ts i outs s0 e0 os s e1 w o s' es Ht H0 H1 Hw H.
    pose proof (session_talk _ _ _ _ _ Ht H0 (talk_0 i)) as T0. pose proof (holds_run E talk (talk_step E) _ _ _ _ _ H1 T0) as T1.
    eapply Forall_impl; [|exact (proj2 (triple_execute E w s o s' es Hw H T1))]. intros t. apply talk_roomy.
  Qed.
End Session.
