(** Interrupted executions that keep to the rules are defined. *)
From Verif Require Import Prelude Address Instruction Checksum Datagram RxState Rx ZBits RxLogic RxInv SpecCodec SpecRx RxBitProofs RxBitProofs2 RxBitProofs3 RxBitProofs4
  SpecExec ExecProofs SpecConf SpecCv CvProofs2 SaneProofs SpecLogon LogonProofs LogonProofs2 LogonProofs3 LogonProofs4
  SpecBidi BidiProofs BidiProofs2 BidiProofs3 BidiProofs4 BidiProofs6 BidiProofs8 BidiProofs9 OfferProofs SpecSafe SafeProofs SafeProofs2 Preempt SpecPreempt
  PreemptProofs PreemptProofs2 PreemptProofs3 PreemptProofs4 StaleProofs TellProofs TellProofs3 SpecFirm FirmProofs FirmProofs2 FirmProofs3 FirmProofs4.

Section Execute.
  Context {I : Type} (E : Env I) (HE : short_cv1 E) (time : I -> Z) (HC : clock E time).
  Implicit Types s : st I.

  Lemma world_base : forall l due s, world time l due s -> base l due s.
  Proof. intros l due s []. split; [constructor; auto; apply talk_stocked; assumption|]. split; assumption. Qed.
  Lemma world_grip : forall l due s p q, world time l due s -> r_deque (rxs s) = p :: q ->
    grip time True p (last_time s, wake_time s, time (app s)) s /\ in_order (last_time s, wake_time s, time (app s)) /\ whole p.
  Proof.
    intros l due s p q [HR _ Ho _ _ _ _ Hq] Hd. split; [split; [intros _; rewrite Hd; reflexivity|split; [reflexivity|cbn; lia]]|]. split; [exact Ho|].
    destruct HR as (_ & HR & _). rewrite <- HR, Hd in Hq. inversion Hq; assumption.
  Qed.

  (** An interrupted execution ends; what it left of the decoder is in order *)
  Lemma execute_sure : forall w l due s, Forall (Forall handler) w -> by_rules complete (concat w) l due -> world time l due s ->
    exists o s' es, preempted E (executeP E) w s = Ok (o, s', es) /\
      owing (owes_all (served o) l due) s' /\ held (rxs s') /\ sane (rxs s') /\ ordered time s' /\ Forall whole (l_queue (listen_all (served o) l)).
  Proof.
    intros w l due s Hw Hb W. unfold executeP. unfold rd at 1, act at 1. cbn [pbind].
    rewrite concat_hd in Hb. apply by_rules_app in Hb. destruct Hb as [B1 B2].
    destruct (run_firm E HE time HC _ _ _ _ W B1) as (s1 & e1 & R1 & W1).
    destruct (f_packet_end (r_fsm (rxs s1))) eqn:Epe.
    { do 3 eexists. split; [eapply preempted_act; [exact R1|unfold gets; rewrite Epe; reflexivity|reflexivity]|].
      unfold served. cbn [snd]. rewrite app_nil_r. destruct W1. auto. }
    pose proof (handlers_tl _ Hw) as Ht. rewrite concat_hd in B2. apply by_rules_app in B2. destruct B2 as [B2 B3].
    destruct (run_firm E HE time HC _ _ _ _ W1 B2) as (s3 & e3 & R3 & W3).
    unfold rd at 1, act at 1. cbn [pbind].
    destruct (r_deque (rxs s3)) as [|p q] eqn:Ed.
    { do 3 eexists. split; [eapply preempted_act; [exact R1|unfold gets; rewrite Epe; reflexivity|]; cbn iota; eapply preempted_act; [exact R3|unfold gets; rewrite Ed; reflexivity|reflexivity]|].
      unfold served. cbn [snd]. rewrite app_nil_r, owes_all_app, listen_all_app. destruct W3. auto. }
    destruct (world_grip _ _ _ _ _ W3 Ed) as (G & Hg & Hp). pose proof (handlers_tl _ Ht) as Ht2.
    destruct (sure_ends E time HC True p _ _ _ _ (sure_handle E HE time HC True p Logic.I Hp _ Hg) _ _ _ _ Ht2 B3 (world_base _ _ _ W3) G)
      as (b & sn & sv & s5 & e5 & g & P5 & C5 & B5 & G5 & Hg5 & _).
    rewrite concat_hd in B5. apply by_rules_app in B5. destruct B5 as [B5 B6]. pose proof (handlers_skipn (length sn) _ Ht2) as Ht3.
    destruct (handlers_base E time HC True p _ _ _ _ _ (handlers_hd _ Ht3) C5 G5 B5) as (s6 & e6 & R6 & C6 & G6).
    destruct G6 as (D6 & T6 & A6). specialize (D6 Logic.I). destruct (r_deque (rxs s6)) as [|p6 q6] eqn:E6; [discriminate|].
    assert (X : popFront s6 = Ok (tt, Mk_st (set_r_deque q6 (rxs s6)) (app s6) (pending s6), [])) by (unfold popFront; rewrite bind_get, E6; reflexivity).
    do 3 eexists. split.
    { eapply preempted_act; [exact R1|unfold gets; rewrite Epe; reflexivity|]. cbn iota.
      eapply preempted_act; [exact R3|unfold gets; rewrite Ed; reflexivity|]. cbn [length Nat.eqb].
      eapply preempted_then; [exact P5|]. unfold act. cbn [pbind]. eapply preempted_act; [exact R6|exact X|reflexivity]. }
    unfold served. cbn [snd]. rewrite app_nil_r, !owes_all_app, !listen_all_app.
    destruct C6 as ([_ _ K1 K2] & K3 & K4). split; [exact K1|]. split; [exact K2|].
    split; [open_sane K3; unfold sane; cbn; close_sane|]. split; [|exact K4].
    unfold ordered, wake_time, last_time. unfold times in T6. destruct g as [[lp tp] t]. injection T6 as T1 T2. cbn [rxs app set_r_deque r_time]. 
    unfold in_order in Hg5. cbn [fst snd] in *. change (r_time (set_r_deque q6 (rxs s6))) with (r_time (rxs s6)). rewrite T1, T2. lia.
  Qed.
End Execute.
