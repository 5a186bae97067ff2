(** Asynchronous CV access *)
From Verif Require Import Prelude Address Instruction Checksum Datagram Speed Packets Backoff RxState Rx ZBits RxLogic RxInv Comm
  SpecCodec CodecProofs CodecProofs2 SpecRx RxBitProofs RxBitProofs4 SpecExec ExecProofs SpecConf ConfProofs SpecCv CvProofs CvProofs2 CvProofs3 CvProofs4 CvProofs7
  SpecAsync.

(** ** At once *)
Section Prompt.
  Context {I : Type} (E : Env I) (HP : prompt E).
  Implicit Types s : st I.
  Let F := synchronous E.

  Definition rel {A} (m m' : M (I := I) A) : Prop := forall s,
    match m s with
    | Ok (a, s1, e1) => exists e2, m' s = Ok (a, s1, e2) /\ Forall2 same_call e1 e2
    | UB r => m' s = UB r
    end.
  Lemma same_refl : forall es, Forall2 same_call es es.
  Proof. induction es; constructor; [apply same_e|assumption]. Qed.
  Lemma rel_refl : forall A (m : M (I := I) A), rel m m.
  Proof. intros A m s. destruct (m s) as [[[a s1] e1]|]; [|reflexivity]. exists e1. split; [reflexivity|apply same_refl]. Qed.
  Lemma rel_eq : forall A (m m' : M (I := I) A), m = m' -> rel m m'.
  Proof. intros A m m' ->. apply rel_refl. Qed.
  Lemma rel_bind : forall A B (m m' : M (I := I) A) (k k' : A -> M B), rel m m' -> (forall a, rel (k a) (k' a)) -> rel (bind m k) (bind m' k').
  Proof.
    intros A B m m' k k' Hm Hk s. unfold bind. specialize (Hm s). destruct (m s) as [[[a s1] e1]|]; [|rewrite Hm; reflexivity].
    destruct Hm as (e2 & -> & H2). specialize (Hk a s1). destruct (k a s1) as [[[b s2] e3]|]; [|rewrite Hk; reflexivity].
    destruct Hk as (e4 & -> & H4). exists (e2 ++ e4). split; [reflexivity|]. apply Forall2_app; assumption.
  Qed.

  Lemma b2z_bit : forall b, negb (Z.b2z b =? 0) = b. Proof. destruct b; reflexivity. Qed.
  Lemma rel_read : forall a v, rel (call_async E (EReadCvByteAsync a v) (PendByte v)) (bind (readCvByte F a v) (fun x => cb_byte F v x)).
  Proof.
    intros a v s. destruct HP as (H & _). unfold call_async. rewrite H. cbn [run_cb]. unfold bind, readCvByte. change (e_readCvByte F) with (e_readCvByte E).
    destruct (e_readCvByte E (app s) a v) as [x i]. cbn [fst snd]. change (cb_byte F) with (cb_byte E).
    destruct (cb_byte E v (u8 x) _) as [[[u s1] e1]|]; [|reflexivity]. eexists. split; [reflexivity|]. constructor; [constructor|apply same_refl].
  Qed.
  Lemma rel_readBit : forall a v k, rel (call_async E (EReadCvBitAsync a v k) (PendBit v)) (bind (readCvBit F a v k) (fun x => cb_bit F v x)).
  Proof.
    intros a v k s. destruct HP as (_ & H & _). unfold call_async. rewrite H. cbn [run_cb]. rewrite b2z_bit. unfold bind, readCvBit. change (e_readCvBit F) with (e_readCvBit E).
    destruct (e_readCvBit E (app s) a v k) as [x i]. cbn [fst snd]. change (cb_bit F) with (cb_bit E).
    destruct (cb_bit E v x _) as [[[u s1] e1]|]; [|reflexivity]. eexists. split; [reflexivity|]. constructor; [constructor|apply same_refl].
  Qed.
  Lemma rel_write : forall a v, rel (call_async E (EWriteCvAsync a v) (PendByte v)) (bind (writeCv F a v) (fun x => cb_byte F v x)).
  Proof.
    intros a v s. destruct HP as (_ & _ & H & _). unfold call_async. rewrite H. cbn [run_cb]. unfold bind, writeCv. change (e_writeCv F) with (e_writeCv E).
    destruct (e_writeCv E (app s) a v) as [x i]. cbn [fst snd]. change (cb_byte F) with (cb_byte E).
    destruct (cb_byte E v (u8 x) _) as [[[u s1] e1]|]; [|reflexivity]. eexists. split; [reflexivity|]. constructor; [constructor|apply same_refl].
  Qed.
  Lemma rel_writeBit : forall a v k, rel (call_async E (EWriteCvBitAsync a v k) (PendBit v)) (bind (writeCvBit F a v k) (fun x => cb_bit F v x)).
  Proof.
    intros a v k s. destruct HP as (_ & _ & _ & H). unfold call_async. rewrite H. cbn [run_cb]. rewrite b2z_bit. unfold bind, writeCvBit. change (e_writeCvBit F) with (e_writeCvBit E).
    destruct (e_writeCvBit E (app s) a v k) as [x i]. cbn [fst snd]. change (cb_bit F) with (cb_bit E).
    destruct (cb_bit E v x _) as [[[u s1] e1]|]; [|reflexivity]. eexists. split; [reflexivity|]. constructor; [constructor|apply same_refl].
  Qed.
  Lemma rel_cvVerify : forall a v, rel (cvVerify E a v) (cvVerify F a v).
  Proof.
    intros a v. unfold cvVerify. apply rel_bind; [(apply rel_eq; reflexivity)|]. intros r. destruct (cvs_locked _); [(apply rel_eq; reflexivity)|].
    change (e_async_readable F) with false. cbn iota. destruct (e_async_readable E); [apply rel_read|(apply rel_eq; reflexivity)].
  Qed.
  Lemma rel_cvVerifyBit : forall a v k, rel (cvVerifyBit E a v k) (cvVerifyBit F a v k).
  Proof.
    intros a v k. unfold cvVerifyBit. apply rel_bind; [(apply rel_eq; reflexivity)|]. intros r. destruct (cvs_locked _); [(apply rel_eq; reflexivity)|].
    change (e_async_readable F) with false. cbn iota. destruct (e_async_readable E); [apply rel_readBit|(apply rel_eq; reflexivity)].
  Qed.
  Lemma rel_cvWrite : forall a v, rel (cvWrite E a v) (cvWrite F a v).
  Proof.
    intros a v. unfold cvWrite. apply rel_bind; [(apply rel_eq; reflexivity)|]. intros r. destruct (_ && _); [(apply rel_eq; reflexivity)|].
    change (e_async_writable F) with false. cbn iota. apply rel_bind; [|intros; (apply rel_eq; reflexivity)].
    destruct (e_async_writable E); [apply rel_write|(apply rel_eq; reflexivity)].
  Qed.
  Lemma rel_cvWriteBit : forall a v k, rel (cvWriteBit E a v k) (cvWriteBit F a v k).
  Proof.
    intros a v k. unfold cvWriteBit. apply rel_bind; [(apply rel_eq; reflexivity)|]. intros r. destruct (_ && _); [(apply rel_eq; reflexivity)|].
    change (e_async_writable F) with false. cbn iota. apply rel_bind; [|intros; (apply rel_eq; reflexivity)].
    destruct (e_async_writable E); [apply rel_writeBit|(apply rel_eq; reflexivity)].
  Qed.

  Ltac rel1 :=
    lazymatch goal with
    | |- rel (cvVerify _ _ _) _ => apply rel_cvVerify
    | |- rel (cvVerifyBit _ _ _ _) _ => apply rel_cvVerifyBit
    | |- rel (cvWrite _ _ _) _ => apply rel_cvWrite
    | |- rel (cvWriteBit _ _ _ _) _ => apply rel_cvWriteBit
    | |- rel (bind _ _) _ => apply rel_bind; [|intro]
    | |- rel (if ?b then _ else _) _ => destruct b
    | |- rel (match ?x with _ => _ end) _ => destruct x
    end.
  Ltac rel_tac := repeat rel1; try (apply rel_eq; reflexivity).
  Lemma rel_cvLong : forall n bs, rel (cvLong E n bs) (cvLong F n bs).
  Proof. intros n bs. unfold cvLong. cbv zeta. rel_tac. Qed.
  Lemma rel_cvShort : forall n bs, rel (cvShort E n bs) (cvShort F n bs).
  Proof. intros n bs. unfold cvShort. cbv zeta. rel_tac. Qed.
  Lemma rel_register : forall bs, rel (registerMode E bs) (registerMode F bs).
  Proof. intros bs. unfold registerMode. cbv zeta. rel_tac. Qed.
  Lemma rel_consist : forall bs, rel (consistControl E bs) (consistControl F bs).
  Proof. intros bs. unfold consistControl. rel_tac. Qed.
  Lemma rel_addressed : forall a bs, rel (executeOperationsAddressed E a bs) (executeOperationsAddressed F a bs).
  Proof.
    intros a bs. unfold executeOperationsAddressed. cbv zeta. apply rel_bind; [(apply rel_eq; reflexivity)|]. intros r.
    repeat match goal with |- rel (if ?b then _ else _) _ => destruct b end; [| | |(apply rel_eq; reflexivity)];
    (apply rel_bind; [(apply rel_eq; reflexivity)|]; intros i; apply rel_bind; [|intros; (apply rel_eq; reflexivity)];
      destruct i; [(apply rel_eq; reflexivity)|(apply rel_eq; reflexivity)|apply rel_consist|(apply rel_eq; reflexivity)|(apply rel_eq; reflexivity)|(apply rel_eq; reflexivity)|(apply rel_eq; reflexivity)|apply rel_cvLong|apply rel_cvShort|(apply rel_eq; reflexivity)]).
  Qed.
  Lemma rel_operations : rel (executeOperations E) (executeOperations F).
  Proof.
    unfold executeOperations. apply rel_bind; [(apply rel_eq; reflexivity)|]. intros r. apply rel_bind; [(apply rel_eq; reflexivity)|]. intros p.
    apply rel_bind; [(apply rel_eq; reflexivity)|]. intros a. destruct (atyp a); lazymatch goal with |- rel (ret _) _ => apply rel_eq; reflexivity | _ => apply rel_addressed end.
  Qed.
  Lemma rel_service : rel (executeService E) (executeService F).
  Proof.
    unfold executeService. apply rel_bind; [(apply rel_eq; reflexivity)|]. intros r. apply rel_bind; [(apply rel_eq; reflexivity)|]. intros p.
    apply rel_bind; [(apply rel_eq; reflexivity)|]. intros b. apply rel_bind; [|intros; (apply rel_eq; reflexivity)].
    repeat match goal with |- rel (if ?b then _ else _) _ => destruct b end;
    lazymatch goal with |- rel (registerMode _ _) _ => apply rel_register | |- rel (cvLong _ _ _) _ => apply rel_cvLong | _ => apply rel_eq; reflexivity end.
  Qed.
  Lemma rel_execute : rel (execute E) (execute F).
  Proof.
    unfold execute. apply rel_bind; [(apply rel_eq; reflexivity)|]. intros r. destruct (_ || _); [(apply rel_eq; reflexivity)|].
    do 4 (apply rel_bind; [(apply rel_eq; reflexivity)|intros]). apply rel_bind; [|intros; (apply rel_eq; reflexivity)].
    unfold executeCommand. apply rel_bind; [(apply rel_eq; reflexivity)|]. intros r'. destruct (service_mode _); [apply rel_service|apply rel_operations].
  Qed.
  Lemma rel_step : forall o, rel (step E o) (step F o).
  Proof. intros [| | |t| |ds| | |j v]; [| | | |apply rel_execute| | | |]; apply rel_eq; reflexivity. Qed.
  Lemma rel_run : forall os, rel (run E os) (run F os).
  Proof. induction os as [|o os IH]; [(apply rel_eq; reflexivity)|]. cbn [run]. apply rel_bind; [apply rel_step|]. intros _. exact IH. Qed.
End Prompt.
