(** Asynchronous CV access in a main loop that is interrupted *)
From Verif Require Import Prelude Address Instruction Checksum Datagram Speed Packets Backoff RxState Rx SpecRx SpecExec SpecConf SpecCv SpecLayout
  SpecAsync AsyncProofs Preempt SpecPreempt PreemptData PreemptLoop SpecLoop SpecWhole StoredProofs4 WholeProofs.

Section Prompt.
  Context {I : Type} (E : Env I) (HP : prompt E).
  Let F := synchronous E.
  Notation prog := (@prog I).

  (** Programs that take the same number of steps; the values a step returns may differ in form *)
  Inductive relP {A} : prog A -> prog A -> Prop :=
  | relP_done : forall a, relP (Done a) (Done a)
  | relP_act : forall B B' (R : B -> B' -> Prop) (m : M (I := I) B) (m' : M B') k k',
      (forall s, match m s with
        | Ok (b, s1, e1) => exists b' e2, m' s = Ok (b', s1, e2) /\ R b b' /\ Forall2 same_call e1 e2
        | UB r => m' s = UB r end) ->
      (forall b b', R b b' -> relP (k b) (k' b')) ->
      relP (Act B m k) (Act B' m' k').

  Lemma relP_refl : forall A (p : prog A), relP p p.
  Proof.
    intros A p. induction p as [a|B m k IH]; [constructor|]. apply (relP_act B B eq).
    - intros s. destruct (m s) as [[[b s1] e1]|]; [|reflexivity]. exists b, e1. repeat split; apply same_refl.
    - intros b b' <-. apply IH.
  Qed.
  Lemma relP_eq : forall A (p p' : prog A), p = p' -> relP p p'.
  Proof. intros A p p' ->. apply relP_refl. Qed.
  Lemma relP_bind : forall A C (p p' : prog A) (k k' : A -> prog C), relP p p' -> (forall a, relP (k a) (k' a)) -> relP (pbind p k) (pbind p' k').
  Proof.
    intros A C p p' k k' Hp Hk. induction Hp as [a|B B' R m m' c c' Hm Hc IH]; cbn [pbind]; [apply Hk|].
    apply (relP_act B B' R); [exact Hm|exact IH].
  Qed.

  Lemma rel_bindR : forall B B' C (R : B -> B' -> Prop) (m : M (I := I) B) (m' : M (I := I) B') (k : B -> M C) (k' : B' -> M C),
    (forall s, match m s with
      | Ok (b, s1, e1) => exists b' e2, m' s = Ok (b', s1, e2) /\ R b b' /\ Forall2 same_call e1 e2
      | UB r => m' s = UB r end) ->
    (forall b b', R b b' -> rel (k b) (k' b')) -> rel (bind m k) (bind m' k').
  Proof.
    intros B B' C R m m' k k' Hm Hk s. unfold bind. specialize (Hm s). destruct (m s) as [[[b s1] e1]|]; [|rewrite Hm; reflexivity].
    destruct Hm as (b' & e2 & -> & HR & H2). specialize (Hk b b' HR s1). destruct (k b s1) as [[[c s2] e3]|]; [|rewrite Hk; reflexivity].
    destruct Hk as (e4 & -> & H4). exists (e2 ++ e4). split; [reflexivity|]. apply Forall2_app; assumption.
  Qed.
  Lemma relP_preempted : forall A (p p' : prog A), relP p p' -> forall w, rel (preempted E p w) (preempted F p' w).
  Proof.
    intros A p p' H. induction H as [a|B B' R m m' c c' Hm Hc IH]; intros w; cbn [preempted]; [apply rel_refl|].
    apply rel_bind; [apply rel_run; exact HP|]. intros _. apply rel_bind; [apply rel_refl|]. intros r.
    apply (rel_bindR _ _ _ R); [exact Hm|]. intros b b' HR. apply rel_bind; [apply IH; exact HR|]. intros x. apply rel_refl.
  Qed.

  Lemma relP_read : forall a v, relP (call_asyncP E (EReadCvByteAsync a v) (PendByte v)) (pbind (act (readCvByte F a v)) (fun x => cb_byteP F v x)).
  Proof.
    intros a v. unfold call_asyncP, act. cbn [pbind]. apply (relP_act _ _ (fun o x => exists y, o = Some y /\ x = u8 y)).
    - intros s. destruct HP as (H & _). unfold ask. rewrite H. unfold readCvByte. change (e_readCvByte F) with (e_readCvByte E).
      destruct (e_readCvByte E (app s) a v) as [x i]. cbn [fst snd]. do 2 eexists. split; [reflexivity|]. split; [exists x; split; reflexivity|repeat constructor].
    - intros b b' (y & -> & ->). apply relP_eq. reflexivity.
  Qed.
  Lemma relP_readBit : forall a v k, relP (call_asyncP E (EReadCvBitAsync a v k) (PendBit v)) (pbind (act (readCvBit F a v k)) (fun x => cb_bitP F v x)).
  Proof.
    intros a v k. unfold call_asyncP, act. cbn [pbind]. apply (relP_act _ _ (fun o x => o = Some (Z.b2z x))).
    - intros s. destruct HP as (_ & H & _). unfold ask. rewrite H. unfold readCvBit. change (e_readCvBit F) with (e_readCvBit E).
      destruct (e_readCvBit E (app s) a v k) as [x i]. cbn [fst snd]. do 2 eexists. split; [reflexivity|]. split; [reflexivity|repeat constructor].
    - intros b b' ->. cbn [run_cbP]. rewrite b2z_bit. apply relP_eq. reflexivity.
  Qed.
  Lemma relP_write : forall a v, relP (call_asyncP E (EWriteCvAsync a v) (PendByte v)) (pbind (act (writeCv F a v)) (fun x => cb_byteP F v x)).
  Proof.
    intros a v. unfold call_asyncP, act. cbn [pbind]. apply (relP_act _ _ (fun o x => exists y, o = Some y /\ x = u8 y)).
    - intros s. destruct HP as (_ & _ & H & _). unfold ask. rewrite H. unfold writeCv. change (e_writeCv F) with (e_writeCv E).
      destruct (e_writeCv E (app s) a v) as [x i]. cbn [fst snd]. do 2 eexists. split; [reflexivity|]. split; [exists x; split; reflexivity|repeat constructor].
    - intros b b' (y & -> & ->). apply relP_eq. reflexivity.
  Qed.
  Lemma relP_writeBit : forall a v k, relP (call_asyncP E (EWriteCvBitAsync a v k) (PendBit v)) (pbind (act (writeCvBit F a v k)) (fun x => cb_bitP F v x)).
  Proof.
    intros a v k. unfold call_asyncP, act. cbn [pbind]. apply (relP_act _ _ (fun o x => o = Some (Z.b2z x))).
    - intros s. destruct HP as (_ & _ & _ & H). unfold ask. rewrite H. unfold writeCvBit. change (e_writeCvBit F) with (e_writeCvBit E).
      destruct (e_writeCvBit E (app s) a v k) as [x i]. cbn [fst snd]. do 2 eexists. split; [reflexivity|]. split; [reflexivity|repeat constructor].
    - intros b b' ->. cbn [run_cbP]. rewrite b2z_bit. apply relP_eq. reflexivity.
  Qed.

  Ltac eqP := apply relP_eq; reflexivity.
  Lemma relP_cvVerify : forall a v, relP (cvVerifyP E a v) (cvVerifyP F a v).
  Proof.
    intros a v. unfold cvVerifyP. apply relP_bind; [eqP|]. intros l. destruct l; [eqP|].
    change (e_async_readable F) with false. cbn iota. destruct (e_async_readable E); [apply relP_read|eqP].
  Qed.
  Lemma relP_cvVerifyBit : forall a v k, relP (cvVerifyBitP E a v k) (cvVerifyBitP F a v k).
  Proof.
    intros a v k. unfold cvVerifyBitP. apply relP_bind; [eqP|]. intros l. destruct l; [eqP|].
    change (e_async_readable F) with false. cbn iota. destruct (e_async_readable E); [apply relP_readBit|eqP].
  Qed.
  Lemma relP_cvWrite : forall a v, relP (cvWriteP E a v) (cvWriteP F a v).
  Proof.
    intros a v. unfold cvWriteP. apply relP_bind; [eqP|]. intros l. destruct (_ && _); [eqP|].
    change (e_async_writable F) with false. cbn iota. apply relP_bind; [|intros; eqP]. destruct (e_async_writable E); [apply relP_write|eqP].
  Qed.
  Lemma relP_cvWriteBit : forall a v k, relP (cvWriteBitP E a v k) (cvWriteBitP F a v k).
  Proof.
    intros a v k. unfold cvWriteBitP. apply relP_bind; [eqP|]. intros l. destruct (_ && _); [eqP|].
    change (e_async_writable F) with false. cbn iota. apply relP_bind; [|intros; eqP]. destruct (e_async_writable E); [apply relP_writeBit|eqP].
  Qed.

  Ltac rel1 :=
    lazymatch goal with
    | |- relP (cvVerifyP _ _ _) _ => apply relP_cvVerify
    | |- relP (cvVerifyBitP _ _ _ _) _ => apply relP_cvVerifyBit
    | |- relP (cvWriteP _ _ _) _ => apply relP_cvWrite
    | |- relP (cvWriteBitP _ _ _ _) _ => apply relP_cvWriteBit
    | |- relP (pbind _ _) _ => apply relP_bind; [|intro]
    | |- relP (if ?b then _ else _) _ => destruct b
    | |- relP (match ?x with _ => _ end) _ => destruct x
    end.
  Ltac rel_tac := repeat rel1; try eqP.
  Lemma relP_cvLong : forall n off, relP (cvLongP E n off) (cvLongP F n off).
  Proof. intros n off. unfold cvLongP. cbv zeta. rel_tac. Qed.
  Lemma relP_cvShort : forall n off, relP (cvShortP E n off) (cvShortP F n off).
  Proof. intros n off. unfold cvShortP. cbv zeta. rel_tac. Qed.
  Lemma relP_register : forall off, relP (registerModeP E off) (registerModeP F off).
  Proof. intros off. unfold registerModeP. cbv zeta. rel_tac. Qed.
  Lemma relP_consist : forall off, relP (consistControlP E off) (consistControlP F off).
  Proof. intros off. unfold consistControlP. rel_tac. Qed.
  Lemma relP_instruct : forall a off, relP (instructP E a off) (instructP F a off).
  Proof.
    intros a off. unfold instructP. apply relP_bind; [eqP|]. intros i. apply relP_bind; [|intros; eqP].
    destruct i; [eqP|eqP|apply relP_consist|eqP|eqP|eqP|eqP|apply relP_cvLong|apply relP_cvShort|eqP].
  Qed.
  Lemma relP_addressed : forall a off, relP (executeOperationsAddressedP E a off) (executeOperationsAddressedP F a off).
  Proof.
    intros a off. unfold executeOperationsAddressedP.
    repeat lazymatch goal with
    | |- relP (instructP _ _ _) _ => apply relP_instruct
    | |- relP (pbind _ _) _ => apply relP_bind; [|intro]
    | |- relP (if ?b then _ else _) _ => destruct b
    end; eqP.
  Qed.
  Lemma relP_operations : relP (executeOperationsP E) (executeOperationsP F).
  Proof.
    unfold executeOperationsP. apply relP_bind; [eqP|]. intros a.
    destruct (atyp a); lazymatch goal with |- relP (Done _) _ => eqP | _ => apply relP_addressed end.
  Qed.
  Lemma relP_service : relP (executeServiceP E) (executeServiceP F).
  Proof.
    unfold executeServiceP.
    repeat lazymatch goal with
    | |- relP (registerModeP _ _) _ => apply relP_register
    | |- relP (cvLongP _ _ _) _ => apply relP_cvLong
    | |- relP (pbind _ _) _ => apply relP_bind; [|intro]
    | |- relP (if ?b then _ else _) _ => destruct b
    end; eqP.
  Qed.
  Lemma relP_handle : relP (handleP E) (handleP F).
  Proof.
    unfold handleP. do 5 (apply relP_bind; [eqP|intro]). match goal with |- relP (if ?b then _ else _) _ => destruct b end; [apply relP_service|apply relP_operations].
  Qed.
  Lemma relP_task : forall t, relP (taskP E t) (taskP F t).
  Proof.
    intros [| |ds|i v]; [|eqP|eqP|eqP]. cbn [taskP]. unfold executeP. apply relP_bind; [eqP|]. intros pe. destruct pe; [eqP|].
    apply relP_bind; [eqP|]. intros e. destruct e; [eqP|]. apply relP_bind; [apply relP_handle|]. intros b. eqP.
  Qed.

  Lemma prompt_task : forall t w, rel (preempted E (taskP E t) w) (preempted F (taskP F t) w).
  Proof. intros t w. apply relP_preempted, relP_task. Qed.
  Lemma prompt_rel : forall ts, rel (mainloop E ts) (mainloop F ts).
  Proof.
    induction ts as [|[[os t] w] r IH]; cbn [mainloop]; [apply rel_refl|]. apply rel_bind; [apply rel_run; exact HP|]. intros _.
    apply rel_bind; [apply prompt_task|]. intros o. apply rel_bind; [exact IH|]. intros x. apply rel_refl.
  Qed.

  Lemma seen_same : forall e1 e2, Forall2 same_call e1 e2 -> seen_in e1 = seen_in e2.
  Proof.
    intros e1 e2 H. induction H as [|a b l l' Hs _ IH]; [reflexivity|]. unfold seen_in in *. cbn [flat_map]. rewrite IH. f_equal. destruct Hs; reflexivity.
  Qed.

  Lemma prompt_loop : forall ts s,
    match mainloop E ts s with
    | Ok (outs, s', es) => exists es', mainloop F ts s = Ok (outs, s', es') /\ Forall2 same_call es es'
    | UB r => mainloop F ts s = UB r
    end.
  Proof. intros ts s. exact (prompt_rel ts s). Qed.
End Prompt.

Theorem prompt_layout : forall (I : Type) (E : Env I) (m : I -> Z -> Z) able, prompt E -> keeps_cvs able (synchronous E) m ->
  (forall a d, e_hook E a (ETransmitBiDi d) = a) ->
  forall before w ts i outs s es, Forall starting before -> Forall (Forall handler) w -> Forall (fun t => Forall (Forall handler) (snd t)) ts ->
  mainloop E ((before, TInit, w) :: ts) (st0 i) = Ok (outs, s, es) -> loop_unassigned ((before, TInit, w) :: ts) outs listener0 ->
  let ps := loop_executed ((before, TInit, w) :: ts) outs listener0 in let x := obey_all (e_east_west E) ps (new_view (m i)) in
  Forall (allowed able) (snd x) ->
  seen_in es = snd x /\ (forall a, m (app s) a = v_cvs (fst x) a) /\ in_service s = v_service (fst x) /\ page s = v_page (fst x) /\
  loop_heard ((before, TInit, w) :: ts) outs listener0 = ps ++ r_deque (rxs s).
Proof.
  intros I E m able HP HK Hq before w ts i outs s es Hb Hw Hts Hm Hu ps x Hx.
  pose proof (prompt_loop E HP ((before, TInit, w) :: ts) (st0 i)) as H. rewrite Hm in H. destruct H as (es' & H & Hs).
  rewrite (seen_same _ _ Hs).
  exact (whole_layout (synchronous E) m able HK Hq before w ts i outs s es' Hb Hw Hts H Hu Hx).
Qed.
