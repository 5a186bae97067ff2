(** What is answered in channel 2 while a packet is executed. *)
From Verif Require Import Prelude Address Instruction SpecCodec Datagram RxState Rx RxLogic SpecRx SpecExec SpecConf SpecCv SpecBidi RxBitProofs RxBitProofs4 ExecProofs
  ZBits CvProofs LogonProofs4 BidiProofs BidiProofs3 Preempt SpecPreempt PreemptProofs PreemptProofs2 PreemptProofs3 PreemptProofs4 SpecOffer OfferProofs2
  SpecStale StaleProofs StaleProofs2 StaleProofs3.

Section Replies.
  Context {I : Type} (E : Env I).
  Implicit Types s : st I.

  Lemma sent_map : forall ds, SpecBidi.sent (map ETransmitBiDi ds) = ds.
  Proof. induction ds as [|d ds IH]; [reflexivity|]. cbn. f_equal. exact IH. Qed.

  (** Channel 2 behind a CV packet for the own number *)
  Lemma reply_now : forall s b s' es, step E OBiDi2 s = Ok (b, s', es) ->
    cv_reply (s, OBiDi2, es) (fun f d => f = last_cv s /\ In d (cv_waiting s)).
  Proof.
    intros s b s' es H Ho Hc. cbn [step] in H. apply bind_inv in H. destruct H as (u & s1 & e1 & e2 & H & H2 & ->).
    inversion H2; subst. rewrite app_nil_r. clear H2. unfold biDiChannel2 in H. rewrite bind_get in H. cbv zeta in H.
    assert (D : decode_instruction_packet (f_packet (r_fsm (rxs s))) = Ok ICvLong).
    { unfold for_cvs in Hc. cbv zeta in Hc. unfold last_bytes in Hc. destruct (f_packet (r_fsm (rxs s))) as [|x r].
      { exfalso. rewrite nth_skipn, skipn_nil in Hc. cbn [hd] in Hc. lia. }
      cbn [hd] in Hc. unfold decode_instruction_packet. rewrite nth_skipn in Hc.
      destruct ((128 <=? x) && (x <=? 252)); cbn [Nat.add] in *;
        (destruct (skipn _ (x :: r)) as [|y q]; [cbn [hd] in Hc; lia|]; cbn [hd] in Hc; cbn [decode_instruction]; f_equal;
         apply classify_cv; [unfold byte; lia|exact Hc]). }
    assert (P : appPom E s = Ok (u, s', e1)).
    { destruct Ho as [Ht Hs]. apply same_spec in Hs. unfold last_address, answering_as, SpecLogon.is_assigned in Hs.
      change (received (r_addrs (rxs s))) with (last_address s) in *. unfold last_address in *.
      destruct (atyp (received (r_addrs (rxs s)))); cbn [In] in Ht; try (exfalso; intuition discriminate);
        rewrite Hs, D, ExecProofs.bind_lift in H; exact H. }
    destruct (pom_answers E s Ho Hc) as (s2 & ds & P2 & _ & A). rewrite P in P2. injection P2 as _ _ ->.
    rewrite sent_map. inversion A; subst; auto.
    - exfalso. destruct Ho as [[X|[X|[]]] _]; unfold last_address in *; congruence.
    - unfold cv_waiting. destruct (pom_deque (r_bidi (rxs s))) as [|d q]; [left; reflexivity|]. right. right. exists d. cbn [firstn].
      split; [reflexivity|]. split; [assumption|left; reflexivity].
    - exfalso. match goal with X : data_turn s |- _ => destruct X as [[_ X]|(_ & X & _)]; [contradiction|]; apply X; apply Ho end.
    - exfalso. destruct Ho as [[X|[X|[]]] _]; unfold last_address in *; congruence.
  Qed.
  Lemma reply_weaken : forall m (P Q : list Z -> list Z -> Prop), (forall f d, P f d -> Q f d) -> cv_reply (I := I) m P -> cv_reply m Q.
  Proof.
    intros [[s o] es] P Q H. destruct o; auto. cbn [cv_reply]. intros K Ho Hc. destruct (K Ho Hc) as [K1|[K1|(d & K1 & K2)]]; auto.
    right. right. exists d. auto.
  Qed.

  Lemma moments_steps : forall os s s' es, run E os s = Ok (tt, s', es) ->
    Forall (fun m : moment (I := I) => exists b t, step E (snd (fst m)) (fst (fst m)) = Ok (b, t, snd m)) (moments E os s).
  Proof.
    induction os as [|o os IH]; intros s s' es H; [constructor|]. cbn [run] in H. apply bind_inv in H.
    destruct H as (b & s1 & e1 & e2 & H1 & H2 & _). cbn [moments]. rewrite H1. constructor; [exists b, s1; exact H1|exact (IH _ _ _ H2)].
  Qed.
  Lemma meanwhile_steps : forall A (P : prog A) w s o s' es, preempted E P w s = Ok (o, s', es) ->
    Forall (fun m : moment (I := I) => exists b t, step E (snd (fst m)) (fst (fst m)) = Ok (b, t, snd m)) (meanwhile E P w s).
  Proof.
    intros A P. induction P as [a|B m k IH]; intros w s o s' es H; [constructor|].
    apply preempted_inv in H. destruct H as (s1 & e1 & b & s2 & e2 & a & sn & sv & e3 & H1 & H2 & H3 & _).
    cbn [meanwhile]. rewrite H1, H2. apply Forall_app. split; [exact (moments_steps _ _ _ _ H1)|exact (IH _ _ _ _ _ _ H3)].
  Qed.
  Lemma reply_like : forall t (m : moment (I := I)), like t m -> (exists b u, step E (snd (fst m)) (fst (fst m)) = Ok (b, u, snd m)) ->
    cv_reply m (fun f d => f = last_cv t /\ In d (cv_waiting t)).
  Proof.
    intros t [[s o] es] [Hm [n Hn]] (b & u & H). cbn [fst snd] in *. destruct o; try exact Logic.I.
    eapply reply_weaken; [|exact (reply_now _ _ _ _ H)]. cbn beta. intros f d [-> Hd].
    assert (L : last_cv s = last_cv t) by (unfold last_cv; unfold mask in Hm; injection Hm; intros; congruence).
    split; [exact L|]. rewrite Hn in Hd. revert Hd. clear. revert n. induction (cv_waiting t) as [|x l IH]; intros [|n]; cbn [skipn In]; auto.
    intros H. right. exact (IH _ H).
  Qed.
End Replies.

Section Torn.
  Context {I : Type} (E : Env I).
  Hypothesis deaf : forall i d, e_hook E i (ETransmitBiDi d) = i.
  Implicit Types s : st I.

  Lemma like_near : forall s m (t : st I), near s t -> faded s t -> like t m -> like s m.
  Proof.
    intros s m t (N & _) F [L1 L2]. split; [congruence|]. apply faded_trans with t; assumption.
  Qed.

  (** [s1] is what execute() leaves with the packet alone in the queue *)
  Lemma torn_answers : forall w l s o s' es,
    Forall (Forall handler) w -> Rl l s -> no_logon (served o) l ->
    preempted E (executeP E) w s = Ok (o, s', es) ->
    match worked_on o with
    | Some p => exists s1, execute E (only p s) = Ok (told o, s1, commands es) /\ faded s1 s' /\
        Forall (fun m => like s m \/ like s1 m \/ exists t, In t (stages (handleP E) (only p s)) /\ like t m) (meanwhile E (executeP E) w s) /\
        (cv_packet p -> in_service s = false -> Forall (cv_stage p s s1) (stages (handleP E) (only p s)) /\ cv_stage p s s1 s1)
    | None => faded s s' /\ Forall (like s) (meanwhile E (executeP E) w s)
    end.
  Proof.
    intros w l s o s' es Hw HR Hn H. unfold executeP in H |- *.
    unfold rd, act in H |- *. cbn [pbind] in H |- *.
    apply preempted_inv in H.
    destruct H as (s1 & e1 & pe & s2 & e2 & a & sn & sv & e3 & H1 & H2 & H3 & -> & ->).
    pose proof H2 as G2. inversion H2; subst pe s2 e2; clear H2.
    unfold served in Hn. cbn [snd] in Hn. apply no_logon_app in Hn. destruct Hn as [Hn1 Hn].
    pose proof (handlers_hd w Hw) as Hh. pose proof (handlers_tl w Hw) as Ht.
    pose proof (run_refines E _ _ _ _ _ HR H1) as HR1.
    assert (N0 : near s s) by (repeat split; auto).
    destruct (handlers_near E deaf _ _ _ _ _ _ Hh Hn1 HR N0 H1) as [N1 C1].
    pose proof (handlers_like E deaf _ _ _ _ _ _ Hh Hn1 HR N0 (faded_refl s) H1) as L1.
    pose proof (pom_handlers E _ _ _ _ Hh H1) as D1.
    cbn [meanwhile]. rewrite H1, G2. clear G2.
    destruct (f_packet_end (r_fsm (rxs s1))) eqn:Epe.
    { inversion H3; subst. unfold worked_on, seen. cbn [fst snd skipn meanwhile]. rewrite app_nil_r. split; assumption. }
    cbn [pbind] in H3 |- *. apply preempted_inv in H3.
    destruct H3 as (s3 & e4 & em & s4 & e5 & a1 & sn1 & sv1 & e6 & H4 & H5 & H6 & Ho & ->).
    injection Ho as -> -> ->. pose proof H5 as G5. inversion H5; subst em s4 e5; clear H5.
    apply no_logon_app in Hn. destruct Hn as [Hn2 Hn].
    pose proof (handlers_hd _ Ht) as Hh2. pose proof (handlers_tl _ Ht) as Ht2.
    pose proof (run_refines E _ _ _ _ _ HR1 H4) as HR3.
    destruct (handlers_near E deaf _ _ _ _ _ _ Hh2 Hn2 HR1 N1 H4) as [N3 C3].
    pose proof (handlers_like E deaf _ _ _ _ _ _ Hh2 Hn2 HR1 N1 D1 H4) as L3.
    assert (D3 : faded s s3) by (apply faded_trans with s1; [exact D1|exact (pom_handlers E _ _ _ _ Hh2 H4)]).
    cbn [meanwhile]. rewrite H4, G5. clear G5.
    destruct (length (r_deque (rxs s3)) =? 0)%nat eqn:Ee.
    { inversion H6; subst. unfold worked_on, seen. cbn [fst snd skipn meanwhile]. rewrite app_nil_r.
      split; [assumption|apply Forall_app; split; assumption]. }
    destruct (r_deque (rxs s3)) as [|p q] eqn:Ed; [discriminate|].
    apply preempted_pbind in H6.
    destruct H6 as (b & sn2 & sv2 & s5 & e7 & c & sn3 & sv3 & e8 & H7 & H8 & Ho & ->).
    injection Ho as -> -> ->. apply no_logon_app in Hn. destruct Hn as [Hn5 Hn6].
    assert (A3 : alike p (only p s) s3).
    { destruct N3 as (B1 & B2 & B3 & B4). unfold alike. rewrite Ed. repeat split; auto. }
    assert (D3' : faded (only p s) s3) by exact D3.
    destruct (follows_handle E deaf p _ _ _ _ _ _ _ _ _ Ht2 Hn5 HR3 A3 D3' H7) as (HR5 & s5f & e7f & F5 & A5 & D5 & C7 & L5).
    cbn [pbind] in H8. pose proof H8 as G8. apply preempted_inv in H8.
    pose proof (handlers_skipn (length sn2) _ Ht2) as Ht3.
    destruct H8 as (s6 & e9 & u & s7 & e10 & a2 & sn4 & sv4 & e11 & H9 & H10 & H11 & Ho & ->).
    injection Ho as -> -> ->. pose proof H10 as G10. inversion H11; subst; clear H11.
    pose proof (handlers_hd _ Ht3) as Hh3. apply no_logon_app in Hn6. destruct Hn6 as [Hn6 _].
    destruct (handlers_alike E deaf p _ _ _ _ _ _ Hh3 Hn6 HR5 A5 H9) as [A6 C9].
    pose proof (handlers_like E deaf _ _ _ _ _ _ Hh3 Hn6 HR5 (alike_near p _ _ A5) D5 H9) as L6.
    assert (D6 : faded s5f s6) by (apply faded_trans with s5; [exact D5|exact (pom_handlers E _ _ _ _ Hh3 H9)]).
    match goal with |- match worked_on ?o with _ => _ end => assert (Hsn : worked_on o = Some p) end.
    { unfold worked_on, seen. cbn [fst snd skipn].
      destruct sn2 as [|d sn2']; [cbn [List.app]; apply A6|]. cbn [List.app].
      assert (Hq3 : hd_error (l_queue (listen_all (hd [] (tl w)) (listen_all (hd [] w) l))) = Some p).
      { destruct HR3 as (_ & <- & _). rewrite Ed. reflexivity. }
      destruct (preempted_core E _ _ (core_handle E) _ _ _ _ _ _ _ _ _
                  (handlers_interrupting _ Ht2) HR3 Hq3 H7) as (_ & Hs2 & _).
      inversion Hs2; subst. assumption. }
    rewrite Hsn. unfold told. cbn [fst].
    destruct A6 as (M1 & M2 & M3 & M4 & M5 & M6).
    assert (SH : cv_packet p -> in_service s = false -> Forall (cv_stage p s s5f) (stages (handleP E) (only p s)) /\ cv_stage p s s5f s5f).
    { intros Hc Hv. exact (staged_handle E p Hc (only p s) _ _ _ eq_refl Hv F5). }
    rewrite (meanwhile_pbind E _ _ _ _ _ _ _ _ _ _ _ H7). cbn [pbind meanwhile]. rewrite H9, G10, app_nil_r.
    rewrite <- flat_execute. unfold executeP. unfold rd at 1, act at 1. cbn [pbind flat].
    unfold bind at 1, gets at 1. cbn [only rxs r_fsm set_f_packet_end set_r_fsm f_packet_end upd_f_packet_end flat].
    unfold rd at 1, act at 1. cbn [pbind flat].
    unfold bind at 1, gets at 1. cbn [only rxs r_deque set_f_packet_end set_r_fsm set_r_deque length Nat.eqb flat].
    rewrite flat_pbind. unfold bind at 1. change (Mk_st _ (app s) (pending s)) with (only p s). rewrite F5.
    unfold act. cbn [pbind flat]. unfold popFront in *. rewrite bind_get in H10. clear G10 G8.
    unfold bind, get, modify, ret in *.
    destruct (r_deque (rxs s5f)) as [|p1 q1]; [discriminate|]. destruct (r_deque (rxs s6)) as [|p2 q2]; [discriminate|].
    inversion H10; subst; clear H10.
    eexists. split.
    - rewrite !commands_app, C1, C3, C9. cbn [List.app commands filter]. rewrite !app_nil_r. reflexivity.
    - split; [exact D6|]. split; [|exact SH].
      repeat (apply Forall_app; split).
      + eapply Forall_impl; [|exact L1]. auto.
      + eapply Forall_impl; [|exact L3]. auto.
      + eapply Forall_impl; [|exact L5]. auto.
      + eapply Forall_impl; [|exact L6]. intros m Hm. right. left. exact Hm.
      + constructor.
  Qed.

  Section Started.
    Variables (ts : list (list op * list (list op))) (i : I) (outs : list outcome) (s0 : st I) (e0 : list event)
      (os : list op) (s : st I) (e1 : list event) (w : list (list op)) (o : outcome) (s' : st I) (es : list event).
    Hypothesis Hi : Forall (fun t => interrupting (snd t)) ts.
    Hypothesis Hs : session E ts (st0 i) = Ok (outs, s0, e0).
    Hypothesis Hr : run E os s0 = Ok (tt, s, e1).
    Hypothesis Hw : Forall (Forall handler) w.
    Hypothesis Hn : no_logon (served o) (listen_all os (all_listened ts outs listener0)).
    Hypothesis H : preempted E (executeP E) w s = Ok (o, s', es).

    Lemma started_torn : match worked_on o with
      | Some p => exists s1, execute E (only p s) = Ok (told o, s1, commands es) /\ faded s1 s' /\
          Forall (fun m => like s m \/ like s1 m \/ exists t, In t (stages (handleP E) (only p s)) /\ like t m) (meanwhile E (executeP E) w s) /\
          (cv_packet p -> in_service s = false -> Forall (cv_stage p s s1) (stages (handleP E) (only p s)) /\ cv_stage p s s1 s1)
      | None => faded s s' /\ Forall (like s) (meanwhile E (executeP E) w s)
      end.
    Proof.
      pose proof (session_listened E _ _ _ _ _ _ Hi (Rl0 i) Hs) as HR0.
      pose proof (run_refines E _ _ _ _ _ HR0 Hr) as HR.
      exact (torn_answers _ _ _ _ _ _ Hw HR Hn H).
    Qed.

    (** What is left *)
    Theorem answers_left : match worked_on o with
      | Some p => exists s1, execute E (only p s) = Ok (told o, s1, commands es) /\ rest_of (cv_waiting s') (cv_waiting s1)
      | None => rest_of (cv_waiting s') (cv_waiting s)
      end.
    Proof.
      pose proof started_torn as K. destruct (worked_on o) as [p|]; [|apply K].
      destruct K as (s1 & K1 & K2 & _). exists s1. split; [exact K1|exact K2].
    Qed.

    (** What is sent meanwhile *)
    Theorem answers_meanwhile : forall p, worked_on o = Some p -> cv_packet p -> in_service s = false ->
      exists s1, execute E (only p s) = Ok (told o, s1, commands es) /\
      Forall (fun m => cv_reply m (fun f d => (f = last_cv_packet s /\ In d (cv_waiting s)) \/
                                              (f = p /\ (In d (cv_waiting s) \/ In d (cv_waiting s1)))))
        (meanwhile E (executeP E) w s).
    Proof.
      intros p Hp Hc Hv. pose proof started_torn as K. rewrite Hp in K. destruct K as (s1 & K1 & _ & K3 & K4).
      destruct (K4 Hc Hv) as [K5 K6]. exists s1. split; [exact K1|].
      pose proof (meanwhile_steps E _ _ _ _ _ _ _ H) as K7. rewrite Forall_forall in *. intros m Hm. specialize (K3 m Hm). specialize (K7 m Hm).
      assert (S : forall t, cv_stage p s s1 t -> like t m -> cv_reply m (fun f d => (f = last_cv_packet s /\ In d (cv_waiting s)) \/
        (f = p /\ (In d (cv_waiting s) \/ In d (cv_waiting s1))))).
      { intros t Ht HL. eapply reply_weaken; [|exact (reply_like E t m HL K7)]. cbn beta. intros f d [-> Hd].
        destruct Ht as [[X1 X2]|[X1 [X2|[X2|X2]]]]; rewrite X1, X2 in *; auto. destruct Hd. }
      destruct K3 as [L|[L|(t & Ht & L)]].
      - apply (S s); [left; split; reflexivity|exact L].
      - exact (S _ K6 L).
      - exact (S _ (K5 _ Ht) L).
    Qed.

    (** Nothing is answered wrongly if no packet is executed *)
    Theorem answers_idle : worked_on o = None ->
      Forall (fun m => cv_reply m (fun f d => f = last_cv_packet s /\ In d (cv_waiting s))) (meanwhile E (executeP E) w s).
    Proof.
      intros Hp. pose proof started_torn as K. rewrite Hp in K. destruct K as [_ K].
      pose proof (meanwhile_steps E _ _ _ _ _ _ _ H) as K7. rewrite Forall_forall in *. intros m Hm.
      exact (reply_like E s m (K m Hm) (K7 m Hm)).
    Qed.
  End Started.
End Torn.
