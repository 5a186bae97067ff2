(** Storing an assigned address while logon packets come in. *)
From Verif Require Import Prelude Address Instruction Checksum Datagram RxState Rx ZBits RxLogic RxInv SpecCodec SpecRx RxBitProofs RxBitProofs4
  SpecExec ExecProofs SpecConf SpecCv SpecLogon SaneProofs Preempt PreemptData SpecPreempt PreemptProofs PreemptProofs2 PreemptProofs4 StaleProofs
  OfferProofs PreemptLoop SpecLoop LoopProofs SpecStored.

Section Stored.
  Context {I : Type} (E : Env I).
  Implicit Types s : st I.

  (** ** Handlers *)

  (** Bytes are bytes *)
  Definition bytes (r : rx) : Prop :=
    Forall byte (f_packet (r_fsm r)) /\ Forall (Forall byte) (r_deque r) /\ byte (index_reg (r_cv r)).
  Definition stuff (r : rx) := (f_packet (r_fsm r), r_deque r, index_reg (r_cv r)).
  Lemma bytes_keeps : forall A (m : M (I := I) A), keeps stuff m -> holds bytes m.
  Proof. intros A m K s a s' es H (H1 & H2 & H3). apply K in H. unfold stuff in H. injection H as A1 A2 A3. unfold bytes. rewrite A1, A2, A3. auto. Qed.
  Lemma bytes_end : holds bytes (receive_packet_end E).
  Proof.
    unfold receive_packet_end. apply holds_bind; [apply holds_get|intro r]. apply holds_bind; [|intros; apply bytes_keeps; keeps_tac].
    destruct (_ && _).
    - do 2 (apply holds_bind; [apply bytes_keeps; keeps_tac|intro]). apply holds_bind; [apply holds_lift|intro]. apply holds_bind; [apply bytes_keeps; keeps_tac|intro].
      apply holds_bind; [apply bytes_keeps; keeps_tac|intros []]; [apply holds_ret|]. apply holds_get_bind. intros r1 s Hr Hs b s' es H.
      destruct (_ <? _)%nat; [|discriminate]. unfold modify in H. inversion H; subst. destruct Hs as (H1 & H2 & H3). split; [exact H1|]. split; [|exact H3].
      cbn. apply Forall_app. split; [exact H2|]. constructor; [exact H1|constructor].
    - apply holds_bind; [apply bytes_keeps; keeps_tac|intro]. apply holds_modify. intros r0 (_ & H2 & H3). split; [apply Forall_nil|]. split; [exact H2|exact H3].
  Qed.
  Lemma bytes_bit : forall bit, holds bytes (receive_bit E bit).
  Proof.
    intros bit. unfold receive_bit. apply holds_get_bind. intros r s Hr Hs b s' es H. cbv zeta in H. rewrite <- Hr in Hs.
    assert (Hp : Forall byte (f_packet (r_fsm r))) by (rewrite <- Hr; exact (proj1 Hs)).
    assert (K : forall m : M (I := I) unit, holds bytes m -> m s = Ok (b, s', es) -> bytes (rxs s'))
      by (intros m Hm Hx; exact (Hm _ _ _ _ Hx Hs)).
    revert H. apply K. clear K Hs Hr. destruct (_ =? _)%nat; [apply bytes_keeps; keeps_tac|]. destruct (f_state (r_fsm r)).
    - apply bytes_keeps; keeps_tac.
    - apply holds_bind; [|intro; apply bytes_keeps; keeps_tac]. apply holds_modify. intros r0 (_ & H2 & H3). split; [apply Forall_nil|]. split; [exact H2|exact H3].
    - cbv zeta. do 2 (apply holds_bind; [apply bytes_keeps; keeps_tac|intro]). destruct (_ <? 8)%nat; [apply holds_ret|].
      destruct (_ <? _)%nat; [|apply holds_fail]. apply holds_bind; [|intro; apply bytes_keeps; keeps_tac].
      apply holds_modify. intros r0 (_ & H2 & H3). split; [|split; [exact H2|exact H3]].
      cbn -[Z.lor u8]. apply Forall_app. split; [exact Hp|]. apply Forall_cons; [apply u8_byte|apply Forall_nil].
    - destruct (negb bit); [apply bytes_keeps; keeps_tac|apply bytes_end].
  Qed.
  Lemma bytes_receive : forall t, holds bytes (receive E t).
  Proof.
    intros t. unfold receive. apply holds_bind; [apply bytes_keeps; keeps_tac|intro].
    destruct (time2bit t); [|apply holds_ret]. apply holds_bind; [apply holds_get|intro r].
    destruct (f_state _); [apply bytes_bit|apply bytes_bit| |];
      (cbv zeta; apply holds_bind; [apply bytes_keeps; keeps_tac|intros _]; destruct (negb _); [apply holds_ret|apply bytes_bit]).
  Qed.
  Lemma bytes_handler : forall o, handler o -> holds bytes (step E o).
  Proof.
    intros o Ho. destruct o; try contradiction; cbn [step]; (apply holds_bind; [|intro; apply holds_ret]).
    - apply bytes_receive.
    - apply bytes_keeps; keeps_tac.
    - apply bytes_keeps; keeps_tac.
  Qed.

  (** What a selected decoder has been told changes only together with the flag *)
  Definition told_by (r : rx) := (logon (r_addrs r), cid_back (r_logon r), sid_back (r_logon r)).
  Definition memo (r : rx) := (logon_selected (r_logon r), logon_store (r_logon r), told_by r).
  Definition firm v (r : rx) : Prop := logon_selected (r_logon r) = true /\ (logon_store (r_logon r) = true \/ told_by r = v).
  Lemma firm_keeps : forall v A (m : M (I := I) A), keeps memo m -> holds (firm v) m.
  Proof.
    intros v A m K s a s' es H [H1 H2]. apply K in H. unfold memo in H. injection H as A1 A2 A3 A4 A5.
    unfold firm, told_by in *. rewrite A1, A2, A3, A4, A5. auto.
  Qed.
  Lemma firm_select : forall v d, holds (firm v) (@logonSelect I d).
  Proof.
    intros v d. unfold logonSelect. apply holds_bind; [apply holds_get|intro r]. destruct (_ || _); [apply holds_ret|].
    apply holds_bind; [|intro; apply firm_keeps; keeps_tac]. apply holds_modify. intros r0 [H1 H2]. split; [reflexivity|exact H2].
  Qed.
  Lemma firm_assign : forall v d a ow, holds (firm v) (@logonAssign I d a ow).
  Proof.
    intros v d a ow. unfold logonAssign. apply holds_bind; [apply holds_get|intro r]. destruct (_ || _); [apply holds_ret|].
    intros s b s' es H [H1 H2]. apply bind_inv in H. destruct H as (u & s1 & e1 & e2 & X & H & _). unfold modify in X. inversion X; subst; clear X.
    match type of H with ?m ?x = _ => assert (K : keeps (fun r => (logon_selected (r_logon r), logon_store (r_logon r))) m) by keeps_tac end.
    apply K in H. injection H as A1 A2. unfold firm. rewrite A1, A2. split; [exact H1|left; reflexivity].
  Qed.
  Lemma firm_enable : forall v g cid sid, holds (firm v) (logonEnable E g cid sid).
  Proof.
    intros v g cid sid s b s' es H Hs. unfold logonEnable in H. rewrite bind_get in H. rewrite (proj1 Hs), orb_true_r in H. inversion H; subst. exact Hs.
  Qed.
  Lemma firm_logon : forall v a bs, holds (firm v) (executeAutomaticLogon E a bs).
  Proof.
    intros v a bs. unfold executeAutomaticLogon. repeat lazymatch goal with
      | |- holds _ (logonSelect _) => apply firm_select
      | |- holds _ (logonAssign _ _ _) => apply firm_assign
      | |- holds _ (logonEnable _ _ _ _) => apply firm_enable
      | _ => holds1 end.
  Qed.
  Ltac ft := repeat lazymatch goal with
      | |- holds _ (executeAutomaticLogon _ _ _) => apply firm_logon
      | |- holds _ (modify _) => apply firm_keeps; keeps_tac
      | _ => holds1 end.
  Lemma firm_receive : forall v t, holds (firm v) (receive E t).
  Proof. intros v t. ft. Qed.
  Lemma firm_handler : forall v o, handler o -> holds (firm v) (step E o).
  Proof.
    intros v o Ho. destruct o; try contradiction; cbn [step]; (apply holds_bind; [|intro; apply holds_ret]).
    - apply firm_receive.
    - apply firm_keeps; keeps_tac.
    - apply firm_keeps; keeps_tac.
  Qed.

  (** Calls that do not write the CVs of automatic logon *)
  Definition spares (a : Z) : Prop := ~ (65296 <= a <= 65300).
  Definition mild (e : event) : Prop := forall x, In x (access_of e) -> is_writing x = true -> spares (target x).
  Lemma mild_handler : forall o, handler o -> emits mild (step E o).
  Proof. intros o Ho. destruct o; try contradiction; cbn [step]; emits_tac; intros x []. Qed.
  Definition cells (es : list event) : list (option Z) := map (fun a => last_stored a es) logon_cvs.
  Lemma cells_mild : forall past es, Forall mild es -> cells (past ++ es) = cells past.
  Proof.
    intros past es H. unfold cells. apply map_ext_in. intros a Ha. unfold last_stored, accesses. rewrite flat_map_app, fold_left_app.
    generalize (fold_left (overwrite a) (flat_map access_of past) None). clear past. induction H as [|e es He _ IH]; intros v; [reflexivity|].
    cbn [flat_map]. rewrite fold_left_app.
    assert (K : fold_left (overwrite a) (access_of e) v = v).
    { unfold mild in He. revert He. generalize (access_of e). clear - Ha. intros l He. induction l as [|x l IH]; [reflexivity|]. cbn [fold_left].
      replace (overwrite a v x) with v; [apply IH; intros y Hy; apply He; right; exact Hy|].
      specialize (He x (or_introl eq_refl)). unfold spares in He.
      assert (65296 <= a <= 65300) by (unfold logon_cvs in Ha; cbn in Ha; lia).
      destruct x; cbn [overwrite is_writing target] in *; try reflexivity; specialize (He eq_refl); destruct (Z.eqb_spec a0 a); try reflexivity; lia. }
    rewrite K. apply IH.
  Qed.
  Lemma handlers_run : forall v os s s' es, Forall handler os -> run E os s = Ok (tt, s', es) -> bytes (rxs s) ->
    bytes (rxs s') /\ (firm v (rxs s) -> firm v (rxs s')) /\ Forall mild es.
  Proof.
    intros v. induction os as [|o os IH]; intros s s' es Hh H Hb; [inversion H; subst; auto|]. inversion Hh as [|? ? K1 K2]; subst.
    cbn [run] in H. apply bind_inv in H. destruct H as (b & s1 & e1 & e2 & H1 & H2 & ->).
    destruct (IH _ _ _ K2 H2 (bytes_handler o K1 _ _ _ _ H1 Hb)) as (A1 & A2 & A3). split; [exact A1|]. split.
    - intro F. exact (A2 (firm_handler v o K1 _ _ _ _ H1 F)).
    - apply Forall_app. split; [exact (mild_handler o K1 _ _ _ _ H1)|exact A3].
  Qed.
End Stored.
