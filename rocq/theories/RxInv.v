(** Invariants of the decoder state: [holds P m] says that [m] preserves [P] *)
From Verif Require Import Prelude Address Instruction Checksum Datagram Speed Packets Backoff RxState Rx RxLogic.

Section Holds.
  Context {I : Type}.
  Implicit Types s : st I.

  Definition holds {A} (P : rx -> Prop) (m : M (I := I) A) : Prop :=
    forall s a s' es, m s = Ok (a, s', es) -> P (rxs s) -> P (rxs s').

  Lemma holds_keeps : forall X (f : rx -> X) (P : rx -> Prop) A (m : M A),
    (forall r r', f r' = f r -> P r -> P r') -> keeps f m -> holds P m.
  Proof. intros X f P A m Hf Hk s a s' es H. apply Hf. exact (Hk _ _ _ _ H). Qed.
  Lemma holds_ret : forall P A (a : A), holds P (ret a).
  Proof. intros P A a s b s' es H. inversion H; subst. auto. Qed.
  Lemma holds_fail : forall P A r, holds P (fail (A := A) r).
  Proof. intros P A r s b s' es H. discriminate. Qed.
  Lemma holds_lift : forall P A (m : res A), holds P (lift m).
  Proof. intros P A [a|r] s b s' es H; inversion H; subst; auto. Qed.
  Lemma holds_get : forall P, holds P get.
  Proof. intros P s b s' es H. inversion H; subst; auto. Qed.
  Lemma holds_modify : forall (P : rx -> Prop) g, (forall r, P r -> P (g r)) -> holds P (modify g).
  Proof. intros P g Hg s b s' es H. inversion H; subst. apply Hg. Qed.
  Lemma holds_bind : forall P A B (m : M A) (k : A -> M B),
    holds P m -> (forall a, holds P (k a)) -> holds P (bind m k).
  Proof.
    intros P A B m k Hm Hk s b s' es H Hp. apply bind_inv in H.
    destruct H as (a & s1 & e1 & e2 & H1 & H2 & _). exact (Hk _ _ _ _ _ H2 (Hm _ _ _ _ H1 Hp)).
  Qed.
  (** The state read by [get] satisfies the invariant *)
  Lemma holds_get_bind : forall (P : rx -> Prop) B (k : rx -> M B),
    (forall r s, rxs s = r -> P r -> forall b s' es, k r s = Ok (b, s', es) -> P (rxs s')) -> holds P (bind get k).
  Proof.
    intros P B k Hk s b s' es H Hp. apply bind_inv in H.
    destruct H as (a & s1 & e1 & e2 & H1 & H2 & _). inversion H1; subst. exact (Hk _ _ eq_refl Hp _ _ _ H2).
  Qed.
  Lemma holds_lift_bind : forall (P : rx -> Prop) A B (x : res A) (k : A -> M B),
    (forall a, x = Ok a -> holds P (k a)) -> holds P (bind (lift x) k).
  Proof.
    intros P A B [a|r] k Hk s b s' es H Hp; [|discriminate]. apply bind_inv in H.
    destruct H as (a' & s1 & e1 & e2 & H1 & H2 & _). inversion H1; subst. exact (Hk _ eq_refl _ _ _ _ H2 Hp).
  Qed.
  Lemma holds_at : forall P bs i, holds P (at_ bs i).
  Proof. intros P bs i. unfold at_. destruct (nth_error bs i); [apply holds_ret|apply holds_fail]. Qed.
End Holds.

Section Calls.
  Context {I : Type} (E : Env I).
  Ltac prim := intros; apply (holds_keeps _ (fun r => r)); [intros ? ? -> H; exact H|].
  Lemma holds_readCv : forall P cv, holds P (readCv E cv). Proof. prim. apply keeps_readCv. Qed.
  Lemma holds_readCvByte : forall P cv b, holds P (readCvByte E cv b). Proof. prim. apply keeps_readCvByte. Qed.
  Lemma holds_readCvBit : forall P cv b p, holds P (readCvBit E cv b p). Proof. prim. apply keeps_readCvBit. Qed.
  Lemma holds_writeCv : forall P cv b, holds P (writeCv E cv b). Proof. prim. apply keeps_writeCv. Qed.
  Lemma holds_writeCvBit : forall P cv b p, holds P (writeCvBit E cv b p). Proof. prim. apply keeps_writeCvBit. Qed.
  Lemma holds_call : forall P e, holds P (call E e). Proof. prim. apply keeps_call. Qed.
  Lemma holds_rand : forall P, holds P (rand E). Proof. prim. apply keeps_rand. Qed.
  Lemma holds_now : forall P, holds P (now E). Proof. prim. apply keeps_now. Qed.
  Lemma holds_call_async : forall P e c,
    (forall v, holds P (run_cb E c v)) -> holds P (call_async E e c).
  Proof.
    intros P e c Hc s a s' es H. unfold call_async in H.
    destruct (e_async E (app s) e) as [[v|] i].
    - destruct (run_cb E c v _) as [[[u s1] e1]|r] eqn:Ec; [|discriminate].
      inversion H; subst. exact (Hc v _ _ _ _ Ec).
    - inversion H; subst; auto.
  Qed.
End Calls.

(** Structural decomposition of a goal [holds P m]; goals about [modify] with an invariant
    that is touched are left *)
Ltac holds1 :=
  lazymatch goal with
  | |- holds _ (bind _ _) => apply holds_bind; [|intro]
  | |- holds _ (ret _) => apply holds_ret
  | |- holds _ (fail _) => apply holds_fail
  | |- holds _ (lift _) => apply holds_lift
  | |- holds _ get => apply holds_get
  | |- holds _ (at_ _ _) => apply holds_at
  | |- holds _ (readCv _ _) => apply holds_readCv
  | |- holds _ (readCvByte _ _ _) => apply holds_readCvByte
  | |- holds _ (readCvBit _ _ _ _) => apply holds_readCvBit
  | |- holds _ (writeCv _ _ _) => apply holds_writeCv
  | |- holds _ (writeCvBit _ _ _ _) => apply holds_writeCvBit
  | |- holds _ (call _ _) => apply holds_call
  | |- holds _ (rand _) => apply holds_rand
  | |- holds _ (now _) => apply holds_now
  | |- holds _ (call_async _ _ _) => apply holds_call_async; intro
  | |- holds _ (modify _) => apply holds_modify; intros ? ?; assumption
  | |- holds _ (when ?b _) => unfold when
  | |- holds _ (if ?b then _ else _) => destruct b
  | |- holds _ (match ?x with _ => _ end) => destruct x
  | |- holds _ (let _ := _ in _) => cbv zeta
  | |- holds _ ?m => let h := head_of m in unfold h
  end.
Ltac holds_tac := repeat holds1.
