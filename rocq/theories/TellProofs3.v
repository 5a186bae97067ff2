(** Sessions of interrupted executions: channel 1. *)
From Verif Require Import Prelude Address Instruction SpecCodec Datagram RxState Rx RxLogic RxInv SpecRx SpecConf SpecLogon SpecBidi RxBitProofs RxBitProofs4 ExecProofs
  ZBits SaneProofs LogonProofs4 BidiProofs BidiProofs3 BidiProofs4 Preempt SpecPreempt PreemptProofs PreemptProofs2 PreemptProofs3 PreemptProofs4
  SpecOffer OfferProofs2 SpecTell StaleProofs TellProofs TellProofs2.

Section Bytes.
  Context {I : Type} (E : Env I).
  Implicit Types s : st I.

  (** What the receiver collects are bytes *)
  Definition collects (r : rx) : Prop := Forall byte (f_packet (r_fsm r)).
  Lemma collects_core : forall A (m : M (I := I) A), keeps core m -> holds collects m.
  Proof.
    intros A m H s b s' es X P. apply H in X. unfold core in X. injection X as X _ _. unfold collects. rewrite X. exact P.
  Qed.
  Ltac coll_tac := repeat holds1.
  Lemma collects_reset : holds collects (@reset I). Proof. coll_tac. Qed.
  Lemma collects_end : holds collects (receive_packet_end E).
  Proof.
    unfold receive_packet_end. apply holds_bind; [apply holds_get|intro r]. apply holds_bind; [|intros; apply collects_reset].
    destruct (_ && _).
    - apply holds_bind; [coll_tac|intros _]. apply holds_bind; [coll_tac|intros _].
      apply holds_bind; [apply holds_lift|intro]. apply holds_bind; [coll_tac|intros _].
      apply holds_bind; [apply collects_core, core_handler|intro]. coll_tac.
    - apply holds_bind; [coll_tac|intros _]. apply holds_modify. intros r0 _. apply Forall_nil.
  Qed.
  Lemma collects_bit : forall bit, holds collects (receive_bit E bit).
  Proof.
    intros bit. unfold receive_bit. apply holds_get_bind. intros r s Hr Hs b s' es H. cbv zeta in H. rewrite <- Hr in Hs.
    destruct (_ =? _)%nat; [exact (collects_reset _ _ _ _ H Hs)|].
    assert (K : forall m : M (I := I) unit, holds collects m -> m s = Ok (b, s', es) -> collects (rxs s'))
      by (intros m Hm Hx; exact (Hm _ _ _ _ Hx Hs)).
    rewrite Hr in Hs. unfold collects in Hs.
    revert H. apply K. clear K. destruct (f_state (r_fsm r)).
    - coll_tac.
    - apply holds_bind; [|intros _; coll_tac]. apply holds_modify. intros r0 _. apply Forall_nil.
    - cbv zeta. do 2 (apply holds_bind; [coll_tac|intros _]). destruct (_ <? 8)%nat; [apply holds_ret|].
      destruct (_ <? _)%nat; [|apply holds_fail]. apply holds_bind; [|intros _; coll_tac].
      apply holds_modify. intros r0 _. unfold collects. cbn -[Z.lor u8].
      apply Forall_app. split; [exact Hs|]. apply Forall_cons; [apply u8_byte|apply Forall_nil].
    - destruct (negb bit); [coll_tac|apply collects_end].
  Qed.
  Lemma collects_receive : forall t, holds collects (receive E t).
  Proof.
    intros t. unfold receive. apply holds_bind; [coll_tac|intros _].
    destruct (time2bit t); [|apply holds_ret]. apply holds_bind; [apply holds_get|intro r].
    destruct (f_state _); [apply collects_bit|apply collects_bit| |];
      (cbv zeta; apply holds_bind; [coll_tac|intros _]; destruct (negb _); [apply holds_ret|apply collects_bit]).
  Qed.
  Lemma collects_handlers : forall os s s' es, Forall handler os -> run E os s = Ok (tt, s', es) -> collects (rxs s) -> collects (rxs s').
  Proof.
    induction os as [|o os IH]; intros s s' es Hh H P; [inversion H; subst; exact P|].
    inversion Hh as [|? ? H1 H2]; subst. cbn [run] in H. apply bind_inv in H. destruct H as (b & s1 & e1 & e2 & H3 & H4 & _).
    apply (IH _ _ _ H2 H4). revert H3 P. destruct o; try contradiction; cbn [step]; intros H3 P;
      apply bind_inv in H3; destruct H3 as (u & s2 & e3 & e4 & H3 & H5 & _); inversion H5; subst.
    - exact (collects_receive _ _ _ _ _ H3 P).
    - exact (collects_core _ _ (core_biDi1 E) _ _ _ _ H3 P).
    - exact (collects_core _ _ (core_biDi2 E) _ _ _ _ H3 P).
  Qed.
  Lemma collects_acts : forall A (P : prog A), acts (fun B m => holds collects m) P -> forall w s o s' es, Forall (Forall handler) w ->
    preempted E P w s = Ok (o, s', es) -> collects (rxs s) -> collects (rxs s').
  Proof.
    intros A P. induction P as [a|B m k IH]; intros HP w s o s' es Hw H Hs; [inversion H; subst; exact Hs|].
    destruct HP as [Hm HP]. apply preempted_inv in H.
    destruct H as (s1 & e1 & b & s2 & e2 & a & sn & sv & e3 & H1 & H2 & H3 & _).
    apply (IH b (HP b) _ _ _ _ _ (handlers_tl _ Hw) H3), (Hm _ _ _ _ H2), (collects_handlers _ _ _ _ (handlers_hd _ Hw) H1 Hs).
  Qed.
  Lemma acts_impl : forall (Q Q' : forall B, M (I := I) B -> Prop), (forall B m, Q B m -> Q' B m) -> forall A (P : prog A), acts Q P -> acts Q' P.
  Proof. intros Q Q' H A P. induction P as [a|B m k IH]; [auto|]. intros [H1 H2]. split; [auto|intro b; exact (IH b (H2 b))]. Qed.
  Lemma collects_popFront : holds collects (@popFront I).
  Proof. unfold popFront. apply holds_bind; [apply holds_get|intro r]. destruct (r_deque r); coll_tac. Qed.
  Lemma collects_execute : acts (fun B (m : M (I := I) B) => holds collects m) (executeP E).
  Proof.
    assert (G : forall X (f : rx -> X), holds collects (@gets I X f)) by (intros X f s b s' es X1 P; inversion X1; subst; exact P).
    unfold executeP. apply acts_pbind; [apply acts_act, G|intro b]. destruct b; [exact Logic.I|].
    apply acts_pbind; [apply acts_act, G|intro b]. destruct b; [exact Logic.I|].
    apply acts_pbind; [exact (acts_impl _ _ (fun B m H => collects_core B m H) _ _ (core_handle E))|intro b].
    apply acts_pbind; [apply acts_act, collects_popFront|intro; exact Logic.I].
  Qed.
End Bytes.

Section Session.
  Context {I : Type} (E : Env I).
  Hypothesis deaf : forall i d, e_hook E i (ETransmitBiDi d) = i.
  Implicit Types s : st I.

  Lemma sane_same : forall s s', same_decoder s s' -> collects (rxs s') -> sane (rxs s) -> sane (rxs s').
  Proof.
    intros s s' [A1 A2 A3 A4 A5 A6 A7 A8 A9 [B1 B2] [C1 C2] D F G] Hc Hs. open_sane Hs. unfold sane.
    rewrite A1, A2, A3, A4, A6, B1, B2, C1, C2, D. close_sane.
  Qed.
  Lemma torn_sane : forall w l s o s' es, Forall (Forall handler) w -> Rl l s -> no_logon (served o) l ->
    preempted E (executeP E) w s = Ok (o, s', es) -> sane (rxs s) -> sane (rxs s').
  Proof.
    intros w l s o s' es Hw HR Hn H Hs.
    assert (Hc : collects (rxs s')) by (apply (collects_acts E _ _ (collects_execute E) _ _ _ _ _ Hw H); open_sane Hs; assumption).
    pose proof (torn_same E deaf _ _ _ _ _ _ Hw HR Hn H) as T. destruct (worked_on o) as [p|].
    - destruct T as (s1 & X & Y). apply (sane_same _ _ Y Hc). apply (sane_execute E _ _ _ _ X).
      open_sane Hs. unfold sane, only. cbn. close_sane.
    - destruct T as (_ & Y & _). exact (sane_same _ _ Y Hc Hs).
  Qed.

  Lemma next_rd_seen : forall A X (f : rx -> X) (k : X -> prog A) w l s a sn sv s' es,
    Forall (Forall handler) w -> no_logon sv l -> Rl l s ->
    preempted E (pbind (rd f) k) w s = Ok ((a, sn, sv), s', es) ->
    exists s1 l1 m1 sn' sv' es', akin s s1 /\ flow s s1 m1 [] /\ Rl l1 s1 /\ no_logon sv' l1 /\
    preempted E (k (f (rxs s1))) (tl w) s1 = Ok ((a, sn', sv'), s', es') /\
    meanwhile E (pbind (rd f) k) w s = m1 ++ meanwhile E (k (f (rxs s1))) (tl w) s1 /\ Forall (Forall handler) (tl w) /\
    length sn = S (length sn').
  Proof.
    intros A X f k w l s a sn sv s' es Hw Hn HR H. pose proof H as H0.
    unfold rd, act in H0. cbn [pbind] in H0. apply preempted_inv in H0.
    destruct H0 as (x1 & e1 & b & x2 & e2 & a' & sn' & sv' & e3 & G1 & G2 & G3 & Ho & _). injection Ho as -> -> ->.
    inversion G2; subst. clear G2.
    apply no_logon_app in Hn. destruct Hn as [Hn1 Hn2]. pose proof (handlers_hd _ Hw) as Hh.
    assert (N0 : near s s) by (repeat split; auto). destruct (handlers_near E deaf _ _ _ _ _ _ Hh Hn1 HR N0 G1) as [(N1 & _) _].
    exists x2, (listen_all (hd [] w) l), (moments E (hd [] w) s), sn', sv', e3. split; [exact N1|].
    split; [exact (flow_run E _ _ _ _ (handler_orderly _ Hh) G1)|]. split; [exact (run_refines E _ _ _ _ _ HR G1)|].
    split; [exact Hn2|]. split; [exact G3|]. split; [unfold rd, act; cbn [pbind meanwhile]; rewrite G1; reflexivity|].
    split; [exact (handlers_tl _ Hw)|reflexivity].
  Qed.

  Lemma torn_flow : forall w l s o s' es, Forall (Forall handler) w -> Rl l s -> no_logon (served o) l ->
    preempted E (executeP E) w s = Ok (o, s', es) -> sane (rxs s) ->
    exists new, flow s s' (meanwhile E (executeP E) w s) new /\ adds s new /\ (new <> [] -> worked_on o <> None) /\
      (worked_on o <> None -> addresses_waiting s = [] -> channel1_on s = true -> active (r_addrs (rxs s)) <> None -> new <> []) /\
      ((length (addresses_waiting s) <= 2)%nat -> (length (addresses_waiting s') <= 2)%nat).
  Proof.
    intros w l s o s' es Hw HR Hn H Hs. destruct o as [[a sn] sv]. unfold served in Hn. cbn [snd] in Hn.
    pose proof (torn_execute E _ _ _ _ _ _ (handlers_interrupting _ Hw) HR H) as (_ & _ & _ & T).
    assert (W : (2 < length sn)%nat -> worked_on (a, sn, sv) <> None).
    { intros L X. rewrite X in T. destruct T as [_ T]. unfold seen in T. cbn [fst snd] in T. lia. }
    assert (V : (length sn <= 2)%nat -> worked_on (a, sn, sv) = None).
    { intros L. unfold worked_on, seen. cbn [fst snd]. destruct sn as [|? [|? [|? ?]]]; try reflexivity. cbn [length] in L. lia. }
    clear T. unfold executeP in H |- *.
    destruct (next_rd_seen _ _ _ _ _ _ _ _ _ _ _ _ Hw Hn HR H) as (s1 & l1 & m1 & sn1 & sv1 & es1 & A1 & F1 & R1 & N1 & P1 & M1 & W1 & L1).
    rewrite M1. clear M1 H.
    assert (STOP : forall m, flow s s' m [] -> (length sn <= 2)%nat -> exists new, flow s s' m new /\ adds s new /\ (new <> [] -> worked_on (a, sn, sv) <> None) /\
      (worked_on (a, sn, sv) <> None -> addresses_waiting s = [] -> channel1_on s = true -> active (r_addrs (rxs s)) <> None -> new <> []) /\
      ((length (addresses_waiting s) <= 2)%nat -> (length (addresses_waiting s') <= 2)%nat)).
    { intros m F L. exists []. split; [exact F|]. split; [left; reflexivity|]. split; [intros X; contradiction X; reflexivity|].
      split; [intros X; contradiction X; exact (V L)|]. pose proof (flow_short _ _ _ _ F). cbn [length] in *. lia. }
    destruct (f_packet_end (r_fsm (rxs s1))).
    { inversion P1; subst. cbn [meanwhile]. rewrite app_nil_r. apply STOP; [exact F1|]. rewrite L1. cbn [length]. lia. }
    destruct (next_rd_seen _ _ _ _ _ _ _ _ _ _ _ _ W1 N1 R1 P1) as (s2 & l2 & m2 & sn2 & sv2 & es2 & A2 & F2 & R2 & N2 & P2 & M2 & W2 & L2).
    rewrite M2. clear M2 P1. pose proof (akin_trans _ _ _ A1 A2) as K2. rewrite app_assoc.
    assert (F12 : flow s s2 (m1 ++ m2) []) by (change (@nil (list Z)) with (@nil (list Z) ++ []); apply flow_trans with s1; assumption).
    destruct (length (r_deque (rxs s2)) =? 0)%nat.
    { inversion P2; subst. cbn [meanwhile]. rewrite app_nil_r. apply STOP; [exact F12|]. rewrite L1, L2. cbn [length]. lia. }
    pose proof P2 as P2'. apply preempted_pbind in P2.
    destruct P2 as (b & sn3 & sv3 & s3 & e3 & c & sn4 & sv4 & e4 & P3 & P4 & Ho & _). injection Ho as -> -> ->.
    rewrite (meanwhile_pbind E _ _ _ _ _ _ _ _ _ _ _ P3). clear P2'.
    pose proof (handlers_skipn (length sn3) _ W2) as W4. apply no_logon_app in N2. destruct N2 as [N3 _].
    assert (F4 : flow s3 s' (meanwhile E (pbind (act (@popFront I)) (fun _ => Done b)) (skipn (length sn3) (tl (tl w))) s3) []).
    { refine (flow_acts E _ _ _ _ _ _ _ _ W4 P4). apply acts_pbind; [|intro; exact Logic.I]. apply acts_act. leaf_keeps. }
    assert (L4 : (0 < length sn4)%nat).
    { unfold act in P4. cbn [pbind] in P4. apply preempted_inv in P4.
      destruct P4 as (x1 & e1 & b1 & x2 & e2 & a1 & sn5 & sv5 & e5 & _ & _ & _ & Ho & _). injection Ho as _ -> _. cbn [length]. lia. }
    assert (L : (2 < length sn)%nat) by (rewrite L1, L2, app_length; lia).
    change (handleP E) with (pbind (@adrP I) (fun _ => restP E)) in P3 |- *.
    pose proof P3 as P3'. apply preempted_pbind in P3'.
    destruct P3' as (u & sn6 & sv6 & s5 & e5 & c' & sn7 & sv7 & e7 & P5 & P6 & Ho & _). injection Ho as -> -> ->.
    rewrite (meanwhile_pbind E _ _ _ _ _ _ _ _ _ _ _ P5). apply no_logon_app in N3. destruct N3 as [N5 _].
    destruct (adr_flow E deaf s _ _ _ _ _ _ _ _ Hs K2 W2 N5 R2 P5) as (new & F5 & Ad & Em & Sh).
    pose proof (flow_acts E _ _ (rest_acts E) _ _ _ _ _ (handlers_skipn (length sn6) _ W2) P6) as F6.
    exists new. split.
    { rewrite (app_assoc (m1 ++ m2)). rewrite <- (app_nil_r new). apply flow_trans with s3; [|exact F4].
      change (flow s s3 ((m1 ++ m2) ++ (meanwhile E adrP (tl (tl w)) s2 ++ meanwhile E (restP E) (skipn (length sn6) (tl (tl w))) s5)) ([] ++ new)).
      apply flow_trans with s2; [exact F12|]. rewrite <- (app_nil_r new). apply flow_trans with s5; [exact F5|exact F6]. }
    split; [exact Ad|]. split; [intros _; exact (W L)|]. split.
    - intros _ X. apply Em. exact (flow_empty _ _ _ F12 X).
    - intros X. pose proof (flow_short _ _ _ _ F12) as Y. pose proof (flow_short _ _ _ _ F6) as Y2. pose proof (flow_short _ _ _ _ F4) as Y3.
      cbn [length] in *. assert (length (addresses_waiting s2) <= 2)%nat as Z0 by lia. apply Sh in Z0. lia.
  Qed.

  (** The session *)
  Lemma session_tells : forall ts l s outs s' es, Forall orderly ts -> no_logon_inside ts outs l -> Rl l s -> sane (rxs s) ->
    (length (addresses_waiting s) <= 2)%nat -> session E ts s = Ok (outs, s', es) ->
    exists ds, announced (executions E ts s) ds /\ addresses_waiting s ++ ds = spoken1 (session_moments E ts s) ++ addresses_waiting s' /\
      (length (addresses_waiting s') <= 2)%nat.
  Proof.
    induction ts as [|[os w] ts IH]; intros l s outs s' es Ho Hn HR Hs Hl H.
    - inversion H; subst. exists []. split; [constructor|]. split; [apply app_nil_r|exact Hl].
    - inversion Ho as [|? ? [O1 O2] O3]; subst. cbn [fst snd] in O1, O2. cbn [session] in H.
      apply bind_inv in H. destruct H as ([] & s1 & e1 & f1 & H1 & H & ->).
      apply bind_inv in H. destruct H as (o & s2 & e2 & f2 & H2 & H & ->).
      apply bind_inv in H. destruct H as (x & s3 & e3 & f3 & H3 & H & ->).
      inversion H; subst; clear H. cbn [no_logon_inside] in Hn. destruct Hn as [Hn1 Hn2].
      cbn [executions session_moments]. rewrite H1, H2.
      pose proof (run_refines E _ _ _ _ _ HR H1) as HR1.
      pose proof (holds_run E _ (sane_step E) _ _ _ _ _ H1 Hs) as Hs1.
      pose proof (flow_run E _ _ _ _ O1 H1) as F1.
      destruct (torn_flow _ _ _ _ _ _ O2 HR1 Hn1 H2 Hs1) as (new & F2 & Ad & Wk & _ & Sh).
      destruct (torn_execute E _ _ _ _ _ _ (handlers_interrupting _ O2) HR1 H2) as (_ & _ & HR2 & _).
      assert (L2 : (length (addresses_waiting s2) <= 2)%nat).
      { apply Sh. pose proof (flow_short _ _ _ _ F1). cbn [length] in *. lia. }
      destruct (IH _ _ _ _ _ O3 Hn2 HR2 (torn_sane _ _ _ _ _ _ O2 HR1 Hn1 H2 Hs1) L2 H3) as (ds & An & Fl & L3).
      exists (new ++ ds). split; [|split; [|exact L3]].
      + destruct Ad as [-> | (a & hi & lo & Con & Ac & Hp & ->)]; [apply announced_skip; exact An|].
        destruct (worked_on o) as [p|]; [|contradiction Wk; [discriminate|reflexivity]].
        cbn [List.app]. exact (announced_pair _ _ _ _ _ _ _ Con Ac Hp An).
      + pose proof (flow_trans _ _ _ _ _ _ _ F1 F2) as F. cbn [List.app] in F. unfold flow in F.
        rewrite !spoken1_app in *. rewrite app_assoc, F, <- app_assoc, Fl, !app_assoc. reflexivity.
  Qed.

  Theorem tells : forall ts i outs s es, Forall orderly ts -> session E ts (st0 i) = Ok (outs, s, es) ->
    no_logon_inside ts outs listener0 ->
    announced (executions E ts (st0 i)) (spoken1 (session_moments E ts (st0 i)) ++ addresses_waiting s) /\
    (length (addresses_waiting s) <= 2)%nat.
  Proof.
    intros ts i outs s es Ho H Hn.
    destruct (session_tells _ _ _ _ _ _ Ho Hn (Rl0 i) (sane_st0 i) (Nat.le_0_l 2) H) as (ds & An & Fl & L).
    cbn in Fl. rewrite <- Fl. auto.
  Qed.
End Session.
