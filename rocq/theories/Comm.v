(** Member functions that do not notice a change of the decoder state: [comm f D m] says
    that running [m] after changing the library state by [f] is the same as running it
    before, in all states satisfying [D] *)
From Verif Require Import Prelude Address Instruction Checksum Datagram Speed Packets Backoff RxState Rx RxLogic.

Section Comm.
  Context {I : Type} (E : Env I) (f : rx -> rx) (D : rx -> Prop).
  Implicit Types s : st I.

  Definition changed s : st I := Mk_st (f (rxs s)) (app s) (pending s).
  Definition after_change {A} (x : res (A * st I * list event)) : res (A * st I * list event) :=
    match x with Ok (a, s, es) => Ok (a, changed s, es) | UB r => UB r end.
  Definition comm {A} (m : M (I := I) A) : Prop := forall s, D (rxs s) ->
    m (changed s) = after_change (m s) /\ (forall a s' es, m s = Ok (a, s', es) -> D (rxs s')).

  Lemma comm_ret : forall A (a : A), comm (ret a).
  Proof. intros A a s H. split; [reflexivity|]. intros b s' es K. inversion K; subst. exact H. Qed.
  Lemma comm_fail : forall A r, comm (fail (A := A) r).
  Proof. intros A r s H. split; [reflexivity|]. intros b s' es K. discriminate. Qed.
  Lemma comm_lift : forall A (m : res A), comm (lift m).
  Proof. intros A [a|r] s H; (split; [reflexivity|]); intros b s' es K; inversion K; subst; exact H. Qed.
  Lemma comm_modify : forall g, (forall r, D r -> g (f r) = f (g r)) -> (forall r, D r -> D (g r)) -> comm (modify g).
  Proof.
    intros g Hg Hd s H. split; [unfold modify, changed; cbn [rxs app pending after_change]; rewrite Hg by exact H; reflexivity|].
    intros b s' es K. inversion K; subst. apply Hd. exact H.
  Qed.
  Lemma comm_bind : forall A B (m : M A) (k : A -> M B), comm m -> (forall a, comm (k a)) -> comm (bind m k).
  Proof.
    intros A B m k Hm Hk s H. destruct (Hm s H) as [H1 H2]. unfold bind. rewrite H1.
    destruct (m s) as [[[a s1] e1]|r]; cbn [after_change]; [|split; [reflexivity|discriminate]].
    specialize (H2 _ _ _ eq_refl). destruct (Hk a s1 H2) as [H3 H4]. rewrite H3.
    destruct (k a s1) as [[[b s2] e2]|r]; cbn [after_change]; [|split; [reflexivity|discriminate]].
    split; [reflexivity|]. intros b' s' es K. inversion K; subst. exact (H4 _ _ _ eq_refl).
  Qed.
  Lemma comm_get : forall B (k : rx -> M B), (forall r, D r -> k (f r) = k r) -> (forall r, D r -> comm (k r)) -> comm (bind get k).
  Proof.
    intros B k Hf Hk s H. unfold bind, get. cbn [rxs changed]. rewrite Hf by exact H.
    destruct (Hk (rxs s) H s H) as [H1 H2]. rewrite H1.
    destruct (k (rxs s) s) as [[[b s2] e2]|r]; cbn [after_change]; [|split; [reflexivity|discriminate]].
    split; [reflexivity|]. intros b' s' es K. inversion K; subst. exact (H2 _ _ _ eq_refl).
  Qed.
  Lemma comm_at : forall bs i, comm (at_ bs i).
  Proof. intros bs i. unfold at_. destruct (nth_error bs i); [apply comm_ret|apply comm_fail]. Qed.

  Ltac prim := intros; intros s0 H0; cbv delta [readCv readCvByte readCvBit writeCv writeCvBit call rand now] beta; cbn [changed app rxs pending];
    try match goal with |- context [let '(_, _) := ?x in _] => destruct x end;
    (split; [reflexivity|]); intros ? ? ? K0; inversion K0; subst; exact H0.
  Lemma comm_readCv : forall cv, comm (readCv E cv). Proof. prim. Qed.
  Lemma comm_readCvByte : forall cv b, comm (readCvByte E cv b). Proof. prim. Qed.
  Lemma comm_readCvBit : forall cv b p, comm (readCvBit E cv b p). Proof. prim. Qed.
  Lemma comm_writeCv : forall cv b, comm (writeCv E cv b). Proof. prim. Qed.
  Lemma comm_writeCvBit : forall cv b p, comm (writeCvBit E cv b p). Proof. prim. Qed.
  Lemma comm_call : forall e, comm (call E e). Proof. prim. Qed.
  Lemma comm_rand : comm (rand E). Proof. prim. Qed.
  Lemma comm_now : comm (now E). Proof. prim. Qed.
  Lemma comm_call_async : forall e c, (forall v, comm (run_cb E c v)) -> comm (call_async E e c).
  Proof.
    intros e c Hc s H. unfold call_async. cbn [changed app rxs pending].
    destruct (e_async E (app s) e) as [[v|] i].
    - destruct (Hc v (Mk_st (rxs s) i (pending s)) H) as [H1 H2]. unfold changed in H1. cbn [rxs app pending] in H1. rewrite H1.
      destruct (run_cb E c v (Mk_st (rxs s) i (pending s))) as [[[u s1] e1]|r]; cbn [after_change]; [|split; [reflexivity|discriminate]].
      split; [reflexivity|]. intros b s' es K. inversion K; subst. exact (H2 _ _ _ eq_refl).
    - split; [reflexivity|]. intros b s' es K. inversion K; subst. exact H.
  Qed.
End Comm.

(** Structural decomposition; reads of the state are checked by conversion *)
Ltac comm1 :=
  lazymatch goal with
  | |- comm _ _ (bind get _) => apply comm_get; [intros ? ?; reflexivity|intros ? ?]
  | |- comm _ _ (bind _ _) => apply comm_bind; [|intro]
  | |- comm _ _ (ret _) => apply comm_ret
  | |- comm _ _ (fail _) => apply comm_fail
  | |- comm _ _ (lift _) => apply comm_lift
  | |- comm _ _ (at_ _ _) => apply comm_at
  | |- comm _ _ (readCv _ _) => apply comm_readCv
  | |- comm _ _ (readCvByte _ _ _) => apply comm_readCvByte
  | |- comm _ _ (readCvBit _ _ _ _) => apply comm_readCvBit
  | |- comm _ _ (writeCv _ _ _) => apply comm_writeCv
  | |- comm _ _ (writeCvBit _ _ _ _) => apply comm_writeCvBit
  | |- comm _ _ (call _ _) => apply comm_call
  | |- comm _ _ (rand _) => apply comm_rand
  | |- comm _ _ (now _) => apply comm_now
  | |- comm _ _ (call_async _ _ _) => apply comm_call_async; intro
  | |- comm _ _ (modify _) => apply comm_modify; [intros ? ?; reflexivity|intros ? ?; assumption]
  | |- comm _ _ (when ?b _) => unfold when
  | |- comm _ _ (if ?b then _ else _) => destruct b
  | |- comm _ _ (match ?x with _ => _ end) => destruct x
  | |- comm _ _ (let _ := _ in _) => cbv zeta
  | |- comm _ _ ?m => let h := head_of m in unfold h
  end.
Ltac comm_tac := repeat comm1.
