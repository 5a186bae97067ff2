(** Channel 1 while executions are interrupted. *)
From Verif Require Import Prelude Address Instruction SpecCodec Datagram RxState Rx RxLogic RxInv SpecRx SpecConf SpecBidi RxBitProofs RxBitProofs4 ExecProofs
  ZBits SaneProofs LogonProofs4 BidiProofs BidiProofs3 BidiProofs4 Preempt SpecPreempt PreemptProofs PreemptProofs2 PreemptProofs3 PreemptProofs4
  SpecOffer OfferProofs2 SpecTell StaleProofs.

Section Flow.
  Context {I : Type} (E : Env I).
  Implicit Types s : st I.

  (** What is transmitted is taken from the front of what waits; [new] is added behind *)
  Definition flow s s' (ms : list (moment (I := I))) (new : list (list Z)) : Prop :=
    addresses_waiting s ++ new = spoken1 ms ++ addresses_waiting s'.
  Lemma flow_refl : forall s, flow s s [] [].
  Proof. intros s. unfold flow. cbn. apply app_nil_r. Qed.
  Lemma flow_trans : forall s s1 s2 m1 m2 n1 n2, flow s s1 m1 n1 -> flow s1 s2 m2 n2 -> flow s s2 (m1 ++ m2) (n1 ++ n2).
  Proof.
    unfold flow. intros s s1 s2 m1 m2 n1 n2 H1 H2. rewrite spoken1_app, app_assoc, H1, <- app_assoc, H2, app_assoc. reflexivity.
  Qed.
  Lemma flow_keep : forall s s', addresses_waiting s' = addresses_waiting s -> flow s s' [] [].
  Proof. unfold flow. intros s s' ->. cbn. apply app_nil_r. Qed.

  Lemma flow_step : forall o s b s' es, o <> OExecute -> step E o s = Ok (b, s', es) -> flow s s' [(s, o, es)] [].
  Proof.
    intros o s b s' es N H. unfold flow. rewrite app_nil_r.
    assert (D : o = OBiDi1 \/ o <> OBiDi1) by (destruct o; auto; right; discriminate). destruct D as [->|D].
    - cbn [step] in H. apply bind_inv in H. destruct H as (u & s1 & e1 & e2 & H & H2 & ->). inversion H2; subst. clear H2.
      rewrite app_nil_r. unfold biDiChannel1 in H. rewrite bind_get in H. cbn [spoken1 flat_map]. rewrite app_nil_r.
      unfold last_address.
      assert (A : forall u s' es, appAdr E s = Ok (u, s', es) -> addresses_waiting s = sent es ++ addresses_waiting s').
      { clear. intros u s' es H. rewrite appAdr_run in H. unfold addresses_waiting. destruct (adr_deque (r_bidi (rxs s))) as [|d q] eqn:Eq.
        - inversion H; subst. rewrite Eq. reflexivity.
        - unfold transmit in H. inversion H; subst. reflexivity. }
      assert (L : keeps told_q (appLogon E 1)) by keeps_tac.
      destruct (atyp (received (r_addrs (rxs s)))) eqn:Et; cbn [atype_eqb]; try (exact (A _ _ _ H)); try (inversion H; subst; reflexivity).
      symmetry. exact (L _ _ _ _ H).
    - rewrite (other_q E _ _ _ _ _ H N D). destruct o; try contradiction; reflexivity.
  Qed.
  Lemma flow_run : forall os s s' es, Forall (fun o => o <> OExecute) os -> run E os s = Ok (tt, s', es) -> flow s s' (moments E os s) [].
  Proof.
    induction os as [|o os IH]; intros s s' es N H; [inversion H; subst; apply flow_refl|].
    inversion N as [|? ? N1 N2]; subst. cbn [run] in H. apply bind_inv in H. destruct H as (b & s1 & e1 & e2 & H1 & H2 & ->).
    cbn [moments]. rewrite H1. change ((s, o, e1) :: moments E os s1) with ([(s, o, e1)] ++ moments E os s1).
    change (@nil (list Z)) with (@nil (list Z) ++ []). apply flow_trans with s1; [exact (flow_step _ _ _ _ _ N1 H1)|exact (IH _ _ _ N2 H2)].
  Qed.
  Lemma handler_orderly : forall os, Forall handler os -> Forall (fun o => o <> OExecute) os.
  Proof. intros os H. eapply Forall_impl; [|exact H]. intros o Ho ->. exact Ho. Qed.

  (** Programs that leave the queue alone *)
  Lemma flow_acts : forall A (P : prog A), acts (fun B m => keeps told_q m) P -> forall w s o s' es, Forall (Forall handler) w ->
    preempted E P w s = Ok (o, s', es) -> flow s s' (meanwhile E P w s) [].
  Proof.
    intros A P. induction P as [a|B m k IH]; intros HP w s o s' es Hw H; [inversion H; subst; apply flow_refl|].
    destruct HP as [Hm HP]. apply preempted_inv in H.
    destruct H as (s1 & e1 & b & s2 & e2 & a & sn & sv & e3 & H1 & H2 & H3 & _). cbn [meanwhile]. rewrite H1, H2.
    change (@nil (list Z)) with (@nil (list Z) ++ []). apply flow_trans with s2; [|exact (IH b (HP b) _ _ _ _ _ (handlers_tl _ Hw) H3)].
    rewrite <- (app_nil_r (moments E (hd [] w) s)). change (@nil (list Z)) with (@nil (list Z) ++ []).
    apply flow_trans with s1; [exact (flow_run _ _ _ _ (handler_orderly _ (handlers_hd _ Hw)) H1)|].
    apply flow_keep. exact (Hm _ _ _ _ H2).
  Qed.

  Ltac kq := leaf_keeps.
  Lemma rest_init : acts (fun B (m : M (I := I) B) => keeps told_q m) (initP E). Proof. acts_tac; kq. Qed.
  Definition restP : prog (I := I) bool :=
    pbind (logonStoreP E) (fun _ => pbind (updateQosP) (fun _ => pbind (updateTimepointsP E) (fun _ =>
    pbind (rd (fun r => service_mode (r_cv r))) (fun sm => if sm : bool then executeServiceP E else executeOperationsP E)))).
  Lemma rest_acts : acts (fun B (m : M (I := I) B) => keeps told_q m) restP.
  Proof.
    repeat lazymatch goal with |- acts _ (initP _) => apply rest_init | _ => acts1 end; kq.
  Qed.
End Flow.
