(** What becomes of packets while the calls of the main loop are interrupted. *)
From Verif Require Import Prelude Address Datagram RxState Rx RxLogic RxInv SpecRx RxBitProofs RxBitProofs2 RxBitProofs3 RxBitProofs4 ExecProofs
  SpecBidi BidiProofs SpecSafe Preempt PreemptData SpecPreempt PreemptProofs PreemptProofs2 StaleProofs OfferProofs PreemptLoop SpecFirm SpecLoop.

Section Queue.
  Context {I : Type} (E : Env I).
  Implicit Types s : st I.

  Lemma acts_callback : forall (Q : forall B, M (I := I) B -> Prop) i v, (forall B (f : st I -> B), Q B (fun s => Ok (f s, s, []))) ->
    (forall c, acts Q (run_cbP E c v)) -> acts Q (callbackP E i v).
  Proof. intros Q i v H1 H2. unfold callbackP. apply acts_pbind; [apply acts_act, H1|]. intros [c|]; [apply H2|exact Logic.I]. Qed.
  Lemma acts_dyn_all : forall (Q : forall B, M (I := I) B -> Prop), (forall d x, acts Q (dyn_pushP d x)) -> forall ds, acts Q (dyn_allP ds).
  Proof. intros Q H. induction ds as [|a ds IH]; [exact Logic.I|]. cbn [dyn_allP]. apply acts_pbind; [apply H|intros _; exact IH]. Qed.
  Lemma acts_datagram : forall (Q : forall B, M (I := I) B -> Prop), (forall B (f : rx -> B), Q B (gets f)) -> (forall b, Q unit (modify (set_block_dyn b))) ->
    (forall d x, acts Q (dyn_pushP d x)) -> forall ds, acts Q (datagramP ds).
  Proof.
    intros Q H1 H2 H3 ds. unfold datagramP, fullP, emptyP. apply acts_pbind; [apply acts_act, H1|intros []].
    - cbn iota. apply acts_pbind; [apply acts_act, H2|intros _]. apply acts_pbind; [apply acts_act, H1|intros []]; [exact Logic.I|apply acts_dyn_all, H3].
    - cbn iota. apply acts_pbind.
      + apply acts_pbind; [apply acts_act, H1|intros []]; cbn iota; [|exact Logic.I]. apply acts_pbind; [apply acts_act, H2|intros _]. apply acts_pbind; [apply acts_act, H1|intro q; apply H3].
      + intros _. apply acts_pbind; [apply acts_act, H1|intros []]; [exact Logic.I|apply acts_dyn_all, H3].
  Qed.
  Lemma acts_push : forall (Q : forall B, M (I := I) B -> Prop), (forall B (f : rx -> B), Q B (gets f)) -> (forall B r, Q B (fail r)) ->
    (forall g, Q unit (modify (fun r => set_dyn_deque (g r) r))) -> forall d x, acts Q (dyn_pushP d x).
  Proof.
    intros Q H1 H2 H3 d x. unfold dyn_pushP, fullP. apply acts_pbind; [apply acts_act, H1|intros []; cbn [negb]; [|exact Logic.I]].
    apply acts_pbind; [apply acts_act, H1|intros []; [exact Logic.I|]]. apply acts_pbind; [apply acts_local; intro; apply H2|intro dg].
    apply acts_act. apply (H3 (fun r => dyn_deque (r_bidi r) ++ [dg])).
  Qed.

  (** Not interrupted, these are the calls of Rx.v *)
  Ltac run_both :=
    cbv [flat pbind act rd wr say gets modify bind get ret when whenP lift local fail
         readCv readCvByte readCvBit writeCv writeCvBit call rand now test_backoff tos_testP];
    cbn [rxs app pending];
    repeat (match goal with
            | |- context [match ?x with _ => _ end] =>
                lazymatch x with
                | context [match _ with _ => _ end] => fail
                | Ok _ => fail
                | _ => destruct x
                end
            end; cbn [rxs app pending]);
    try reflexivity.
  Lemma flat_init : forall s, flat (initP E) s = init E s.
  Proof. intros [r i ps]. unfold initP, init. run_both. Qed.
  Lemma flat_run_cb : forall c v s, flat (run_cbP E c v) s = run_cb E c v s.
  Proof.
    intros [b|b] v [r i ps]; unfold run_cbP, run_cb, cb_byteP, cb_byte, cb_bitP, cb_bit, pomP, pom; run_both.
  Qed.
  Theorem flat_task : forall t s, flat (taskP E t) s = step E (call_of t) s.
  Proof.
    assert (K : forall A (P : prog A) m s, flat P s = m s -> flat (pbind P (fun _ => Done false)) s = bind m (fun _ => ret false) s).
    { intros A P m s H. rewrite flat_pbind. unfold bind. rewrite H. reflexivity. }
    intros [| |ds|i v] s; cbn [taskP call_of step].
    - apply flat_execute.
    - apply K, flat_init.
    - apply K, flat_datagram.
    - unfold callbackP, act. cbn [pbind flat]. unfold bind at 1. destruct (nth_error (pending s) i) as [c|]; [|reflexivity].
      rewrite (K _ _ _ _ (flat_run_cb c v s)). destruct (bind (run_cb E c v) (fun _ => ret false) s) as [[[b s1] e1]|]; reflexivity.
  Qed.

  Lemma core_task : forall t, t <> TExecute -> acts (fun B m => keeps core m) (taskP E t).
  Proof.
    intros t Ht.
    assert (G : forall B (f : rx -> B), keeps core (gets (I := I) f)) by (intros B f s b s' es H; inversion H; reflexivity).
    destruct t as [| |ds|i v]; cbn [taskP]; [congruence|..]; (apply acts_pbind; [|intro; exact Logic.I]).
    - apply kc_init.
    - apply acts_datagram; [exact G|intro; apply keeps_modify; reflexivity|]. apply acts_push; [exact G|intros B r; apply keeps_fail|intro; apply keeps_modify; reflexivity].
    - apply acts_callback; [intros B f s b s' es H; inversion H; reflexivity|intro; apply kc_run_cb].
  Qed.
  Lemma preempted_core' : forall A (P : prog A), acts (fun B m => keeps core m) P -> forall w l s a sn sv s' es,
    interrupting w -> Rl l s -> preempted E P w s = Ok ((a, sn, sv), s', es) -> Rl (listen_all sv l) s' /\ Forall (fun o => o <> OExecute) sv.
  Proof.
    intros A P. induction P as [a|B m k IH]; intros HP w l s a' sn sv s' es Hw HR H.
    - inversion H; subst. split; [exact HR|constructor].
    - destruct HP as [Hm Hk]. apply preempted_inv in H. destruct H as (s1 & e1 & b & s2 & e2 & a0 & sn1 & sv1 & e3 & H1 & H2 & H3 & Ho & ->). injection Ho as -> -> ->.
      pose proof (run_refines E _ _ _ _ _ HR H1) as HR1. pose proof (Rl_core _ _ _ (Hm _ _ _ _ H2) HR1) as HR2.
      destruct (IH b (Hk b) _ _ _ _ _ _ _ _ (interrupting_tl w Hw) HR2 H3) as (Ha & Hc).
      split; [rewrite listen_all_app; exact Ha|]. apply Forall_app. split; [exact (interrupting_hd w Hw)|exact Hc].
  Qed.
  Lemma task_queue : forall t w l s o s' es, interrupting w -> Rl l s -> preempted E (taskP E t) w s = Ok (o, s', es) ->
    Rl (round [] t o l) s' /\ Forall (fun o => o <> OExecute) (served o) /\
    (t = TExecute -> one_packet o) /\ (forall p, packet_of t o = Some p -> hd_error (l_queue (listen_all (served o) l)) = Some p).
  Proof.
    intros t w l s o s' es Hw HR H. destruct t as [| |ds|i v].
    - cbn [taskP] in H. destruct (torn_execute E w l s o s' es Hw HR H) as (H1 & H2 & H3 & H4).
      split; [exact H3|]. split; [exact H2|]. split; [intros _; exact H1|]. intros p Hp. cbn [packet_of] in Hp. rewrite Hp in H4. rewrite queue_grows by exact H2. exact H4.
    - destruct o as [[a sn] sv]. destruct (preempted_core' _ _ (core_task TInit ltac:(discriminate)) _ _ _ _ _ _ _ _ Hw HR H) as (H1 & H2).
      split; [exact H1|]. split; [exact H2|]. split; discriminate.
    - destruct o as [[a sn] sv]. destruct (preempted_core' _ _ (core_task (TDatagram ds) ltac:(discriminate)) _ _ _ _ _ _ _ _ Hw HR H) as (H1 & H2).
      split; [exact H1|]. split; [exact H2|]. split; discriminate.
    - destruct o as [[a sn] sv]. destruct (preempted_core' _ _ (core_task (TCallback i v) ltac:(discriminate)) _ _ _ _ _ _ _ _ Hw HR H) as (H1 & H2).
      split; [exact H1|]. split; [exact H2|]. split; discriminate.
  Qed.

  Theorem loop_queue : forall ts l s outs s' es, Forall (fun t => interrupting (snd t)) ts -> Rl l s -> mainloop E ts s = Ok (outs, s', es) ->
    executions_whole ts outs /\ l_queue l ++ loop_heard ts outs l = loop_executed ts outs l ++ r_deque (rxs s').
  Proof.
    induction ts as [|[[os t] w] ts IH]; intros l s outs s' es Hi HR H.
    - inversion H; subst. split; [constructor|]. cbn. destruct HR as (_ & -> & _). apply app_nil_r.
    - inversion Hi as [|? ? Hw Hts]; subst. cbn [snd] in Hw. cbn [mainloop] in H.
      apply bind_inv in H. destruct H as ([] & s1 & e1 & f1 & H1 & H & ->).
      apply bind_inv in H. destruct H as (o & s2 & e2 & f2 & H2 & H & ->).
      apply bind_inv in H. destruct H as (x & s3 & e3 & f3 & H3 & H & ->). inversion H; subst; clear H.
      pose proof (run_refines E _ _ _ _ _ HR H1) as HR1.
      destruct (task_queue _ _ _ _ _ _ _ Hw HR1 H2) as (HR2 & Hsv & Ho & Hp).
      change (round [] t o (listen_all os l)) with (round os t o l) in HR2.
      destruct (IH _ _ _ _ _ Hts HR2 H3) as (Hall & Hq).
      split; [constructor; [exact Ho|exact Hall]|]. cbn [loop_heard loop_executed].
      rewrite (app_assoc (l_queue l)), log_queue, <- !app_assoc. f_equal. rewrite app_assoc, <- queue_grows by exact Hsv.
      assert (K : l_queue (round os t o l) = match packet_of t o with Some _ => tl (l_queue (listen_all (served o) (listen_all os l))) | None => l_queue (listen_all (served o) (listen_all os l)) end)
        by (unfold round; destruct (packet_of t o); reflexivity).
      rewrite K in Hq. clear K. destruct (packet_of t o) as [p|]; [|exact Hq]. specialize (Hp p eq_refl).
      destruct (l_queue (listen_all (served o) (listen_all os l))) as [|p' q']; [discriminate|].
      injection Hp as ->. cbn [tl List.app] in *. f_equal. exact Hq.
  Qed.
  Theorem loop_fifo : forall ts i outs s' es, Forall (fun t => interrupting (snd t)) ts -> mainloop E ts (st0 i) = Ok (outs, s', es) ->
    executions_whole ts outs /\ loop_heard ts outs listener0 = loop_executed ts outs listener0 ++ r_deque (rxs s').
  Proof. intros ts i outs s' es Hi H. exact (loop_queue _ _ _ _ _ _ Hi (Rl0 i) H). Qed.
End Queue.
