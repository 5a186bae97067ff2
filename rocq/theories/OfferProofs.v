(** datagram() interrupted by the handlers. *)
From Verif Require Import Prelude Address Instruction SpecCodec Datagram RxState Rx RxLogic RxInv SpecRx SpecConf SpecBidi RxBitProofs ExecProofs
  ZBits SaneProofs BidiProofs BidiProofs2 BidiProofs3 BidiProofs6 BidiProofs7 Preempt SpecPreempt PreemptProofs PreemptProofs2 PreemptProofs4 PreemptData SpecOffer.

Section Parts.
  Context {A : Type}.
  Implicit Types xs ys zs : list A.
  Lemma part_refl : forall xs, part xs xs.
  Proof. induction xs; [constructor|apply part_keep; assumption]. Qed.
  Lemma part_none : forall xs, part [] xs.
  Proof. induction xs; constructor; assumption. Qed.
  Lemma part_trans : forall ys zs, part ys zs -> forall xs, part xs ys -> part xs zs.
  Proof.
    induction 1 as [|z ys zs H IH|z ys zs H IH]; intros xs P; [exact P|constructor; auto|].
    inversion P; subst; [apply part_skip; auto|apply part_keep; auto].
  Qed.
  Lemma part_app : forall xs ys, part xs ys -> forall xs' ys', part xs' ys' -> part (xs ++ xs') (ys ++ ys').
  Proof. induction 1; intros xs' ys' H'; cbn [List.app]; [exact H'|apply part_skip; auto|apply part_keep; auto]. Qed.
  Lemma part_firstn : forall n m xs, (n <= m)%nat -> part (firstn n xs) (firstn m xs).
  Proof.
    induction n as [|n IH]; intros m xs H; [apply part_none|]. destruct m as [|m]; [lia|].
    destruct xs as [|x xs]; [constructor|]. rewrite !firstn_cons. apply part_keep. apply IH. lia.
  Qed.
End Parts.

Section Flat2.
  Context {I : Type}.
  Implicit Types s : st I.
  Lemma flat_rd : forall A X (f : rx -> X) (k : X -> prog A) s, flat (pbind (rd f) k) s = flat (k (f (rxs s))) s.
  Proof.
    intros A X f k s. unfold rd, act. cbn [pbind flat]. unfold bind, gets. destruct (flat _ s) as [[[a s1] e1]|r]; reflexivity.
  Qed.
  Lemma flat_wr : forall A (f : rx -> rx) (k : unit -> prog A) s, flat (pbind (wr f) k) s = bind (modify f) (fun u => flat (k u)) s.
  Proof. reflexivity. Qed.
  Lemma flat_wr0 : forall (f : rx -> rx) s, flat (wr f) s = modify f s.
  Proof. reflexivity. Qed.
  Lemma flat_push : forall d x s, flat (dyn_pushP d x) s = dyn_push d x s.
  Proof.
    intros d x s. unfold dyn_pushP, dyn_push. rewrite flat_rd, bind_get.
    destruct (ch2_data_enabled (r_conf (rxs s))); cbn [negb orb]; [|reflexivity].
    unfold fullP. rewrite flat_rd. destruct (_ =? _)%nat; [reflexivity|].
    destruct (rbind _ _) as [dg|r]; [|reflexivity]. reflexivity.
  Qed.
  Lemma flat_all : forall ds s, flat (dyn_allP ds) s = dyn_all ds s.
  Proof.
    induction ds as [|a ds IH]; intros s; [reflexivity|]. cbn [dyn_allP dyn_all]. rewrite flat_pbind.
    unfold bind. rewrite flat_push. destruct (dyn_push _ _ s) as [[[u s1] e1]|r]; [|reflexivity]. rewrite IH. reflexivity.
  Qed.
  Lemma flat_datagram : forall ds s, flat (datagramP ds) s = datagram ds s.
  Proof.
    intros ds s. unfold datagramP, datagram. unfold fullP. rewrite flat_rd, bind_get. rewrite flat_pbind.
    assert (T : forall s', flat (pbind (rd (fun r => block_dyn (r_bidi r))) (fun b : bool => if b then Done tt else dyn_allP ds)) s' =
      bind get (fun r => if block_dyn (r_bidi r) then ret tt else dyn_all ds) s').
    { intros s'. rewrite flat_rd, bind_get. destruct (block_dyn _); [reflexivity|apply flat_all]. }
    unfold bind at 1. symmetry. unfold bind at 1.
    match goal with |- match ?a with _ => _ end = match ?b with _ => _ end => assert (X : b = a) end.
    { destruct (_ =? _)%nat; [reflexivity|]. unfold emptyP. rewrite flat_rd. destruct (_ =? _)%nat; [|reflexivity].
      rewrite flat_wr. unfold bind, modify. rewrite flat_rd.
      match goal with |- match flat ?p ?z with _ => _ end = _ => replace (flat p z) with (dyn_push (qos (r_cnt (rxs s))) 7 z) by (symmetry; apply flat_push) end.
      reflexivity. }
    rewrite X. match goal with |- match ?a with _ => _ end = _ => destruct a as [[[u s1] e1]|r] end; [|reflexivity]. rewrite T. reflexivity.
  Qed.
End Flat2.

Section Offer.
  Context {I : Type} (E : Env I).
  Implicit Types s : st I.

  (** Invariant of all states between two steps *)
  Definition fit (r : rx) : Prop := talk r /\ sane r /\ byte (qos (r_cnt r)).

  Lemma holds_and : forall (P Q : rx -> Prop) A (m : M (I := I) A), holds P m -> holds Q m -> holds (fun r => P r /\ Q r) m.
  Proof. intros P Q A m H1 H2 s a s' es H [Hp Hq]. split; [exact (H1 _ _ _ _ H Hp)|exact (H2 _ _ _ _ H Hq)]. Qed.
  Definition fair (r : rx) : Prop := byte (qos (r_cnt r)).
  Lemma fair_keeps : forall A (m : M (I := I) A), keeps (fun r => qos (r_cnt r)) m -> holds fair m.
  Proof. intros A m K s a s' es H Hs. unfold fair. rewrite (K _ _ _ _ H). exact Hs. Qed.
  Lemma fair_execute : holds fair (execute E).
  Proof.
    unfold execute. apply holds_bind; [apply holds_get|intro r]. destruct (_ || _); [apply holds_ret|].
    apply holds_bind; [apply fair_keeps; keeps_tac|intro]. apply holds_bind; [apply fair_keeps; keeps_tac|intro].
    apply holds_bind.
    { unfold updateQos. apply holds_bind; [apply holds_get|intro r']. destruct (_ <? _); [apply holds_ret|].
      repeat (apply holds_bind; [|intro]); apply holds_modify; intros r0 H0; unfold fair; cbn -[u8]; try exact H0; apply u8_byte. }
    intro. apply holds_bind; [apply fair_keeps; keeps_tac|intro]. apply holds_bind; [apply fair_keeps; keeps_tac|intro]. apply fair_keeps; keeps_tac.
  Qed.
  Lemma fair_dyn_all : forall ds, holds fair (@dyn_all I ds).
  Proof. induction ds as [|a ds IH]; [apply holds_ret|]. apply holds_bind; [apply fair_keeps; keeps_tac|intro; exact IH]. Qed.
  Lemma fair_step : forall o, holds fair (step E o).
  Proof.
    intros o. destruct o; cbn [step].
    1,2,3,4,7,8: apply fair_keeps; keeps_tac.
    - apply fair_execute.
    - apply holds_bind; [|intro; apply holds_ret]. unfold datagram. apply holds_bind; [apply holds_get|intro r].
      apply holds_bind; [apply fair_keeps; keeps_tac|intro]. apply holds_bind; [apply holds_get|intro r']. destruct (block_dyn _); [apply holds_ret|apply fair_dyn_all].
    - intros s b s' es H Hs. destruct (nth_error (pending s) i) as [c|]; [|inversion H; subst; exact Hs].
      assert (holds fair (bind (run_cb E c v) (fun _ => ret false))) as K by (apply fair_keeps; keeps_tac). exact (K _ _ _ _ H Hs).
  Qed.
  Lemma fit_step : forall o, holds fit (step E o).
  Proof. intros o. apply holds_and; [apply talk_step|]. apply holds_and; [apply sane_step|apply fair_step]. Qed.
  Lemma fit_0 : forall i, fit (rxs (st0 (I := I) i)).
  Proof.
    intros i. split; [apply talk_0|]. split; [|unfold byte; cbn; lia].
    apply (sane_run E i [] _ []). reflexivity.
  Qed.
End Offer.
