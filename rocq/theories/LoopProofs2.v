(** The calls of the main loop are defined though they are interrupted. *)
From Verif Require Import Prelude Address Instruction Checksum Datagram RxState Rx ZBits RxLogic RxInv SpecCodec SpecRx RxBitProofs RxBitProofs2 RxBitProofs3 RxBitProofs4
  SpecExec ExecProofs SpecConf SpecCv CvProofs2 SaneProofs SpecLogon LogonProofs LogonProofs2 LogonProofs3 LogonProofs4
  SpecBidi BidiProofs BidiProofs2 BidiProofs3 BidiProofs4 BidiProofs6 BidiProofs8 BidiProofs9 OfferProofs SpecSafe SafeProofs SafeProofs2 Preempt PreemptData SpecPreempt
  PreemptProofs PreemptProofs2 PreemptProofs3 PreemptProofs4 StaleProofs TellProofs TellProofs3 SpecFirm FirmProofs FirmProofs2 FirmProofs3 FirmProofs4 FirmProofs5 FirmProofs6 FirmProofs7
  PreemptLoop SpecLoop LoopProofs.

Section Datagram.
  Context {I : Type} (E : Env I).
  Implicit Types s : st I.

  (** Dynamic information waiting: there is room for one more *)
  Definition spare (r : rx) : Prop := talk r /\ (length (dyn_deque (r_bidi r)) < 7)%nat.
  Lemma dyn_loop_le : forall dq buf pos rest buf' n, dyn_loop dq buf pos = Ok (rest, buf', n) -> (length rest <= length dq)%nat.
  Proof.
    induction dq as [|d dq IH]; intros buf pos rest buf' n H; cbn [dyn_loop] in H; [inversion H; subst; cbn; lia|].
    destruct (_ <=? _)%nat; [|discriminate]. cbv zeta in H. destruct dq as [|d2 q]; [inversion H; subst; cbn; lia|].
    destruct (_ <=? _)%nat; [apply IH in H; cbn [length] in *; lia|inversion H; subst; cbn; lia].
  Qed.
  Lemma lasting_spare : lasting E spare.
  Proof.
    split; [intros r [Hr _]; exact Hr|]. intros o Ho s b s' es H [H1 H2]. split; [exact (talk_step E o _ _ _ _ H H1)|].
    assert (A : keeps (fun r => dyn_deque (r_bidi r)) (appTos E)) by keeps_tac. assert (B : keeps (fun r => dyn_deque (r_bidi r)) (appPom E)) by keeps_tac.
    assert (C : keeps (fun r => dyn_deque (r_bidi r)) (appLogon E 2)) by keeps_tac.
    assert (D : holds (fun r => (length (dyn_deque (r_bidi r)) < 7)%nat) (appDyn E)).
    { clear. intros s a s' es H Hs. unfold appDyn in H. rewrite bind_get in H. destruct (dyn_deque (r_bidi (rxs s))) as [|d q] eqn:Eq; [inversion H; subst; rewrite Eq; exact Hs|].
      apply bind_inv in H. destruct H as (x & s1 & e1 & e2 & H1 & H & _). unfold lift in H1. destruct (dyn_loop _ _ _) as [[[rest buf] n]|] eqn:El; [|discriminate]. inversion H1; subst; clear H1.
      apply dyn_loop_le in El. unfold bind, modify, call in H. inversion H; subst. cbn. lia. }
    destruct o as [| | |t| |ds| | |j v]; try contradiction; cbn [step] in H; apply bind_inv in H; destruct H as (u & s1 & e1 & e2 & H & X & _); inversion X; subst; clear X.
    - pose proof ((ltac:(keeps_tac) : keeps (fun r => dyn_deque (r_bidi r)) (receive E t)) _ _ _ _ H) as K. cbv beta in K. rewrite K. exact H2.
    - pose proof ((ltac:(keeps_tac) : keeps (fun r => dyn_deque (r_bidi r)) (biDiChannel1 E)) _ _ _ _ H) as K. cbv beta in K. rewrite K. exact H2.
    - assert (K : forall (g : rx -> list (list Z)) (m : M (I := I) unit), keeps g m -> holds (fun r => (length (g r) < 7)%nat) m) by (intros g m Km q1 a q2 x Hq Hl; cbv beta; rewrite (Km _ _ _ _ Hq); exact Hl).
      assert (Z : holds (fun r => (length (dyn_deque (r_bidi r)) < 7)%nat) (biDiChannel2 E)).
      { unfold biDiChannel2. apply holds_bind; [apply holds_get|intro r]. cbv zeta. destruct (atyp (received (r_addrs r))); try apply holds_ret; try exact D;
          try (first [exact (K _ _ A)|exact (K _ _ B)|exact (K _ _ C)]). all: destruct (addr_eqb _ _); [apply holds_bind; [apply holds_lift|intro i]; destruct i; try exact D; first [exact (K _ _ A)|exact (K _ _ B)|exact (K _ _ C)]|].
        all: destruct (_ && _); [first [exact D|exact (K _ _ A)|exact (K _ _ B)|exact (K _ _ C)]|apply holds_ret]. }
      exact (Z _ _ _ _ H H2).
  Qed.
  Lemma lasting_fair : forall R, lasting E R -> lasting E (fun r => R r /\ fair r).
  Proof. intros R [H1 H2]. split; [intros r [Hr _]; exact (H1 r Hr)|]. intros o Ho. apply holds_and; [exact (H2 o Ho)|apply fair_step]. Qed.

  (** Room in the queues *)
  Lemma triple_push : forall d x, triple E talk (dyn_pushP d x) talk.
  Proof.
    intros d x. unfold dyn_pushP, fullP. apply (triple_rd E _ _ (fun _ => talk)); [apply lasting_talk|auto|]. intros r _. destruct (negb _); [apply triple_Done; auto|].
    apply (triple_rd E _ _ (fun b => if b : bool then talk else spare)); [apply lasting_talk| |].
    { intros r0 H0. change rx_bidi_deque_size with 7%nat. destruct (Nat.eqb_spec (length (dyn_deque (r_bidi r0))) 7); [exact H0|]. split; [exact H0|]. open_talk H0. lia. }
    intros r0 _. destruct (_ =? _)%nat; [apply triple_Done; auto|]. apply triple_local. intros dg Hd. apply id_shaped in Hd. change (datagram_size B18) with 3%nat in Hd.
    apply triple_wr; [apply lasting_spare|auto|]. intros r1 [H0 H1]. open_talk H0. unfold talk. cbn. close_talk.
    - apply Forall_app. split; [assumption|]. constructor; [exact Hd|constructor].
    - rewrite app_length. cbn [length]. lia.
  Qed.
  Lemma triple_all : forall ds, triple E talk (dyn_allP ds) talk.
  Proof. induction ds as [|a ds IH]; [apply triple_Done; auto|]. cbn [dyn_allP]. apply (triple_bind E _ talk); [apply triple_push|intros _; exact IH]. Qed.
  Lemma triple_datagram : forall ds, triple E talk (datagramP ds) talk.
  Proof.
    assert (B : forall b, triple E talk (wr (set_block_dyn b)) talk) by (intros b; apply triple_wr; [apply lasting_talk|auto|intros r H; exact H]).
    intros ds. unfold datagramP, fullP, emptyP.
    apply (triple_rd E _ _ (fun _ => talk)); [apply lasting_talk|auto|]. intros r _. apply (triple_bind E _ talk).
    - destruct (_ =? _)%nat; [apply B|]. apply (triple_rd E _ _ (fun _ => talk)); [apply lasting_talk|auto|]. intros r1 _. destruct (_ =? _)%nat; [|apply triple_Done; auto].
      apply (triple_bind E _ talk); [apply B|intros _]. apply (triple_rd E _ _ (fun _ => talk)); [apply lasting_talk|auto|]. intros r2 _. apply triple_push.
    - intros _. apply (triple_rd E _ _ (fun _ => talk)); [apply lasting_talk|auto|]. intros r1 _. destruct (block_dyn _); [apply triple_Done; auto|apply triple_all].
  Qed.
  Lemma triple_task : forall t, triple E talk (taskP E t) talk.
  Proof.
    intros t. destruct t as [| |ds|i v]; cbn [taskP]; [apply triple_execute|..]; (apply (triple_bind E _ talk); [|intros _; apply triple_Done; auto]).
    - apply triple_init.
    - apply triple_datagram.
    - unfold callbackP. apply triple_act; [apply lasting_talk|]. intros s b s' es Hs H. inversion H; subst. exists talk. split; [exact Hs|].
      destruct (nth_error _ _); [apply triple_run_cb|apply triple_Done; auto].
  Qed.
  Lemma fair_task : forall t, acts (fun B (m : M (I := I) B) => holds fair m) (taskP E t).
  Proof.
    assert (G : forall B (f : rx -> B), holds fair (gets (I := I) f)) by (intros B f s b s' es H; inversion H; subst; auto).
    intros t. destruct t as [| |ds|i v]; cbn [taskP]; [apply fair_execute'|..]; (apply acts_pbind; [|intro; exact Logic.I]).
    - apply fair_init.
    - apply acts_datagram; [exact G|intro; apply fair_keeps, keeps_modify; reflexivity|]. apply acts_push; [exact G|intros B r; apply holds_fail|intro; apply fair_keeps, keeps_modify; reflexivity].
    - apply acts_callback; [intros B f s b s' es H; inversion H; subst; auto|]. intros [b|b]; acts_tac; apply fair_keeps; solve [leaf_keeps].
  Qed.
End Datagram.
