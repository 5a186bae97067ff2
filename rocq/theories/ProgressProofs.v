(** Progress of a main loop that is interrupted in every call. *)
From Verif Require Import Prelude RxState Rx RxLogic SpecRx RxBitProofs RxBitProofs4 Preempt SpecPreempt PreemptProofs PreemptProofs2 PreemptProofs4
  PreemptLoop SpecLoop LoopProofs StoredProofs4 SpecProgress.

Section Progress.
  Context {I : Type} (E : Env I).
  Implicit Types s : st I.

  Lemma rd_inv : forall X (f : rx -> X) s b s2 e2, gets f s = Ok (b, s2, e2) -> b = f (rxs s) /\ s2 = s.
  Proof. intros X f s b s2 e2 H. inversion H; subst. split; reflexivity. Qed.

  Theorem turn_taken : forall w l s o s' es, interrupting w -> Rl l s -> preempted E (executeP E) w s = Ok (o, s', es) ->
    worked_on o = if l_fresh (listen_all (hd [] w) l) then None else hd_error (l_queue (listen_all (hd [] w ++ hd [] (tl w)) l)).
  Proof.
    intros w l s o s' es Hw HR H. unfold executeP in H. apply preempted_inv in H.
    destruct H as (s1 & e1 & b & s2 & e2 & a & sn & sv & e3 & H1 & H2 & H3 & -> & _). apply rd_inv in H2. destruct H2 as [-> ->].
    pose proof (run_refines E _ _ _ _ _ HR H1) as HR1. cbn beta in H3.
    rewrite (proj1 (proj2 (proj2 HR1))) in H3.
    destruct (l_fresh (listen_all (hd [] w) l)); [inversion H3; subst; reflexivity|].
    apply preempted_inv in H3.
    destruct H3 as (s3 & e4 & b & s4 & e5 & a2 & sn2 & sv2 & e6 & H4 & H5 & H6 & Ho & _). apply rd_inv in H5. destruct H5 as [-> ->].
    injection Ho as -> -> ->. pose proof (run_refines E _ _ _ _ _ HR1 H4) as HR3. cbn beta in H6.
    rewrite <- listen_all_app in HR3. rewrite (proj1 (proj2 HR3)) in H6.
    set (q := l_queue (listen_all (hd [] w ++ hd [] (tl w)) l)) in *.
    destruct (length q =? 0)%nat eqn:El.
    { apply Nat.eqb_eq, length_zero_iff_nil in El. inversion H6; subst. rewrite El. reflexivity. }
    assert (G : exists B m (k : B -> prog bool), pbind (handleP E) (fun b0 => pbind (act popFront) (fun _ => Done b0)) = Act B m k) by (do 3 eexists; reflexivity).
    destruct G as (B & m & k & G). rewrite G in H6. apply preempted_inv in H6.
    destruct H6 as (s5 & e7 & b & s6 & e8 & a3 & sn3 & sv3 & e9 & H7 & _ & _ & Ho & _). injection Ho as -> -> ->.
    pose proof (run_refines E _ _ _ _ _ HR3 H7) as (_ & L2 & _). unfold worked_on, seen. cbn [fst snd skipn]. rewrite L2.
    rewrite queue_grows by (apply interrupting_hd, interrupting_tl, interrupting_tl; exact Hw). fold q.
    destruct q; [discriminate|reflexivity].
  Qed.

  Lemma loop_turns : forall ts l s outs s' es, Forall (fun t => Forall (Forall handler) (snd t)) ts -> Rl l s -> mainloop E ts s = Ok (outs, s', es) ->
    (turns ts outs l <= length (loop_executed ts outs l) \/ length (l_queue l) <= length (loop_executed ts outs l))%nat.
  Proof.
    induction ts as [|[[os t] w] ts IH]; intros l s outs s' es Hi HR H; [inversion H; subst; left; apply le_n|].
    inversion Hi as [|? ? Hw Hts]; subst. cbn [snd] in Hw. cbn [mainloop] in H.
    apply bind_inv in H. destruct H as ([] & s1 & e1 & f1 & H1 & H & ->).
    apply bind_inv in H. destruct H as (o & s2 & e2 & f2 & H2 & H & ->).
    apply bind_inv in H. destruct H as (x & s3 & e3 & f3 & H3 & H & ->). inversion H; subst; clear H.
    pose proof (run_refines E _ _ _ _ _ HR H1) as HR1. pose proof (handlers_interrupting _ Hw) as Hin.
    destruct (task_queue E _ _ _ _ _ _ _ Hin HR1 H2) as (HR2 & Hsv & _ & _).
    change (round [] t o (listen_all os l)) with (round os t o l) in HR2.
    specialize (IH _ _ _ _ _ Hts HR2 H3). cbn [turns loop_executed]. rewrite !app_length.
    pose proof (f_equal (@length _) (log_queue os l)) as Q1. rewrite !app_length in Q1.
    pose proof (f_equal (@length _) (queue_grows (served o) (listen_all os l) Hsv)) as Q2. rewrite app_length in Q2.
    assert (Q3 : (length (l_queue (listen_all (served o) (listen_all os l))) <= length (l_queue (round os t o l)) +
                  length (match packet_of t o with Some p => [p] | None => [] end))%nat).
    { unfold round. destruct (packet_of t o); cbn [l_queue length]; [|lia]. destruct (l_queue (listen_all (served o) (listen_all os l))); cbn [tl length]; lia. }
    assert (Q4 : (match t with TExecute => if held os w l then 0 else 1 | _ => 0 end <= length (match packet_of t o with Some p => [p] | None => [] end))%nat \/
                 l_queue (listen_all os l) = []).
    { destruct t as [| |ds|j v]; try (left; lia). cbn [packet_of]. cbn [taskP] in H2. rewrite (turn_taken _ _ _ _ _ _ Hin HR1 H2).
      unfold held. destruct (l_fresh (listen_all (hd [] w) (listen_all os l))); [left; lia|].
      rewrite queue_grows by (apply Forall_app; split; apply interrupting_hd; [exact Hin|apply interrupting_tl; exact Hin]).
      destruct (l_queue (listen_all os l)); [right; reflexivity|left; cbn; lia]. }
    destruct Q4 as [Q4|Q4]; [|rewrite Q4 in Q1; cbn [length] in Q1; right; lia].
    destruct IH as [IH|IH]; [left|right]; lia.
  Qed.

  Theorem loop_progress : forall ts1 i outs1 s1 e1 ts2 outs2 s2 e2, Forall (fun t => Forall (Forall handler) (snd t)) (ts1 ++ ts2) ->
    mainloop E ts1 (st0 i) = Ok (outs1, s1, e1) -> mainloop E ts2 s1 = Ok (outs2, s2, e2) ->
    let l := loop_listened ts1 outs1 listener0 in
    exists more, loop_executed ts2 outs2 l = firstn (turns ts2 outs2 l) (r_deque (rxs s1)) ++ more.
  Proof.
    intros ts1 i outs1 s1 e1 ts2 outs2 s2 e2 Hts H1 H2 l. apply Forall_app in Hts. destruct Hts as [Ht1 Ht2].
    pose proof (loop_heard_on E _ _ _ _ _ _ Ht1 (Rl0 i) H1) as HR. fold l in HR.
    assert (Hi : Forall (fun t : list op * task * list (list op) => interrupting (snd t)) ts2).
    { eapply Forall_impl; [|exact Ht2]. intros t. apply handlers_interrupting. }
    pose proof (proj2 (loop_queue E _ _ _ _ _ _ Hi HR H2)) as Q. pose proof (loop_turns _ _ _ _ _ _ Ht2 HR H2) as T.
    rewrite (proj1 (proj2 HR)). set (n := turns ts2 outs2 l) in *. set (x := loop_executed ts2 outs2 l) in *. set (q := l_queue l) in *.
    exists (skipn (length (firstn n q)) x). rewrite <- (firstn_skipn (length (firstn n q)) x) at 1. f_equal.
    assert (L : (length (firstn n q) <= length x)%nat) by (rewrite firstn_length; lia).
    assert (L2 : (length (firstn n q) <= length q)%nat) by (rewrite firstn_length; lia).
    apply (f_equal (firstn (length (firstn n q)))) in Q. rewrite !firstn_app in Q.
    replace (length (firstn n q) - length q)%nat with 0%nat in Q by lia. replace (length (firstn n q) - length x)%nat with 0%nat in Q by lia.
    rewrite !firstn_O, !app_nil_r in Q. rewrite <- Q, firstn_length, <- firstn_firstn, firstn_all. reflexivity.
  Qed.

  Theorem loop_turn : forall ts i outs s0 e0 os s e1 w o s' es, Forall (fun t => Forall (Forall handler) (snd t)) ts ->
    mainloop E ts (st0 i) = Ok (outs, s0, e0) -> run E os s0 = Ok (tt, s, e1) -> Forall (Forall handler) w ->
    preempted E (executeP E) w s = Ok (o, s', es) ->
    let l := listen_all os (loop_listened ts outs listener0) in
    worked_on o = if l_fresh (listen_all (hd [] w) l) then None else hd_error (l_queue (listen_all (hd [] w ++ hd [] (tl w)) l)).
  Proof.
    intros ts i outs s0 e0 os s e1 w o s' es Hts H0 H1 Hw H l.
    exact (turn_taken _ _ _ _ _ _ (handlers_interrupting _ Hw) (run_refines E _ _ _ _ _ (loop_heard_on E _ _ _ _ _ _ Hts (Rl0 i) H0) H1) H).
  Qed.
End Progress.
