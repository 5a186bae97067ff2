(** Channel 1 under interrupts: the claims. *)
From Verif Require Import Prelude Address Instruction SpecCodec Datagram RxState Rx RxLogic RxInv SpecRx SpecConf SpecLogon SpecBidi RxBitProofs RxBitProofs4 ExecProofs
  ZBits SaneProofs LogonProofs4 BidiProofs BidiProofs3 BidiProofs4 BidiProofs9 Preempt SpecPreempt PreemptProofs PreemptProofs2 PreemptProofs3 PreemptProofs4
  SpecOffer OfferProofs2 SpecTell StaleProofs TellProofs TellProofs2 TellProofs3.

Section Claims.
  Context {I : Type} (E : Env I).
  Hypothesis deaf : forall i d, e_hook E i (ETransmitBiDi d) = i.
  Implicit Types s : st I.

  Lemma session_sane : forall ts l s outs s' es, Forall orderly ts -> no_logon_inside ts outs l -> Rl l s -> sane (rxs s) ->
    session E ts s = Ok (outs, s', es) -> sane (rxs s') /\ Forall (fun x => sane (rxs (fst x))) (executions E ts s).
  Proof.
    induction ts as [|[os w] ts IH]; intros l s outs s' es Ho Hn HR Hs H.
    - inversion H; subst. split; [exact Hs|constructor].
    - inversion Ho as [|? ? [O1 O2] O3]; subst. cbn [fst snd] in O1, O2. cbn [session] in H.
      apply bind_inv in H. destruct H as ([] & s1 & e1 & f1 & H1 & H & ->).
      apply bind_inv in H. destruct H as (o & s2 & e2 & f2 & H2 & H & ->).
      apply bind_inv in H. destruct H as (x & s3 & e3 & f3 & H3 & H & ->).
      inversion H; subst; clear H. cbn [no_logon_inside] in Hn. destruct Hn as [Hn1 Hn2].
      cbn [executions]. rewrite H1, H2.
      pose proof (run_refines E _ _ _ _ _ HR H1) as HR1.
      pose proof (holds_run E _ (sane_step E) _ _ _ _ _ H1 Hs) as Hs1.
      destruct (torn_execute E _ _ _ _ _ _ (handlers_interrupting _ O2) HR1 H2) as (_ & _ & HR2 & _).
      destruct (IH _ _ _ _ _ O3 Hn2 HR2 (torn_sane E deaf _ _ _ _ _ _ O2 HR1 Hn1 H2 Hs1) H3) as [A B].
      split; [exact A|]. constructor; [exact Hs1|exact B].
  Qed.
  Lemma active_range : forall s a, sane (rxs s) -> active (r_addrs (rxs s)) = Some a -> 0 <= aval a < 16384.
  Proof.
    intros s a Hs Ha. open_sane Hs. unfold active in Ha. destruct (aval (logon _) =? 0); [|inversion Ha; subst; exact Hlo].
    destruct (aval (consist _) =? 0); [inversion Ha; subst; exact Hpr|]. destruct (aval (consist _) <? 128); inversion Ha; subst; exact Hco.
  Qed.

  Theorem told_reads : forall ts i outs s es, Forall orderly ts -> session E ts (st0 i) = Ok (outs, s, es) ->
    no_logon_inside ts outs listener0 ->
    forall s1 x a hi lo, In (s1, x) (executions E ts (st0 i)) -> active (r_addrs (rxs s1)) = Some a -> address_pair (r_addrs (rxs s1)) a hi lo ->
    exists h l, make_data (decode_datagram hi) = Ok (256 * 1 + h) /\ make_data (decode_datagram lo) = Ok (256 * 2 + l) /\
    (same_address a (consist (r_addrs (rxs s1))) -> reading_of h l = Member (aval a mod 128) (arev (consist (r_addrs (rxs s1))))) /\
    (~ same_address a (consist (r_addrs (rxs s1))) -> reading_of h l = Loco (aval a)).
  Proof.
    intros ts i outs s es Ho H Hn s1 x a hi lo Hin Ha Hp.
    destruct (session_sane _ _ _ _ _ _ Ho Hn (Rl0 i) (sane_st0 i) H) as [_ F].
    rewrite Forall_forall in F. specialize (F _ Hin). cbn [fst] in F.
    destruct (pair_reads _ a hi lo (active_range _ _ F Ha) Hp) as (h & l & R1 & R2 & _ & _ & R3 & R4). exists h, l. auto.
  Qed.

  Theorem told_prepared : forall ts i outs s0 e0 os s e1 w o s' es, Forall orderly ts -> session E ts (st0 i) = Ok (outs, s0, e0) ->
    no_logon_inside ts outs listener0 -> run E os s0 = Ok (tt, s, e1) ->
    Forall (Forall handler) w -> no_logon (served o) (listen_all os (all_listened ts outs listener0)) ->
    preempted E (executeP E) w s = Ok (o, s', es) ->
    forall a, worked_on o <> None -> addresses_waiting s = [] -> channel1_on s = true -> active (r_addrs (rxs s)) = Some a ->
    exists hi lo, address_pair (r_addrs (rxs s)) a hi lo /\ spoken1 (meanwhile E (executeP E) w s) ++ addresses_waiting s' = [hi; lo].
  Proof.
    intros ts i outs s0 e0 os s e1 w o s' es Ho H Hn Hr Hw Hn2 Hp a Wk Em On Ac.
    destruct (session_sane _ _ _ _ _ _ Ho Hn (Rl0 i) (sane_st0 i) H) as [Hs0 _].
    assert (Hi : Forall (fun t => interrupting (snd t)) ts).
    { eapply Forall_impl; [|exact Ho]. intros t [_ X]. exact (handlers_interrupting _ X). }
    pose proof (run_refines E _ _ _ _ _ (session_listened E _ _ _ _ _ _ Hi (Rl0 i) H) Hr) as HR.
    pose proof (holds_run E _ (sane_step E) _ _ _ _ _ Hr Hs0) as Hs.
    destruct (torn_flow E deaf _ _ _ _ _ _ Hw HR Hn2 Hp Hs) as (new & F & Ad & _ & Ne & _).
    assert (N : new <> []) by (apply Ne; auto; rewrite Ac; discriminate).
    destruct Ad as [->|(a' & hi & lo & _ & Ac' & Pr & ->)]; [contradiction N; reflexivity|].
    rewrite Ac in Ac'. injection Ac' as <-. exists hi, lo. split; [exact Pr|]. unfold flow in F. rewrite Em in F. symmetry. exact F.
  Qed.
End Claims.
