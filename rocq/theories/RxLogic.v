(** Reasoning about the decoder monad of Rx.v: what a member function leaves alone,
    which calls it can make, and weakest preconditions. *)
From Verif Require Import Prelude Address Instruction Checksum Datagram Speed Packets Backoff RxState Rx.

Section Logic.
  Context {I : Type}.
  Implicit Types s : st I.

  (** [m] never changes the part [f] of the library state *)
  Definition keeps {X A} (f : rx -> X) (m : M (I := I) A) : Prop :=
    forall s a s' es, m s = Ok (a, s', es) -> f (rxs s') = f (rxs s).

  (** [m] only makes calls satisfying [P] *)
  Definition emits {A} (P : event -> Prop) (m : M (I := I) A) : Prop :=
    forall s a s' es, m s = Ok (a, s', es) -> Forall P es.

  (** Weakest precondition; undefined behaviour is excluded *)
  Definition wp {A} (m : M (I := I) A) (Q : A -> st I -> list event -> Prop) (s : st I) : Prop :=
    match m s with Ok (a, s', es) => Q a s' es | UB _ => False end.

  (** The same, undefined behaviour permitted *)
  Definition wlp {A} (m : M (I := I) A) (Q : A -> st I -> list event -> Prop) (s : st I) : Prop :=
    match m s with Ok (a, s', es) => Q a s' es | UB _ => True end.

  Lemma bind_inv : forall A B (m : M A) (k : A -> M B) s b s' es,
      bind m k s = Ok (b, s', es) ->
      exists a s1 e1 e2, m s = Ok (a, s1, e1) /\ k a s1 = Ok (b, s', e2) /\ es = e1 ++ e2.
  Proof.
    intros A B m k s b s' es H. unfold bind in H.
    destruct (m s) as [[[a s1] e1]|r] eqn:Em; [|discriminate].
    destruct (k a s1) as [[[b2 s2] e2]|r] eqn:Ek; [|discriminate].
    apply Ok_inj in H. inversion H; subst. exists a, s1, e1, e2. auto.
  Qed.

  Lemma keeps_ret : forall X (f : rx -> X) A (a : A), keeps f (ret a).
  Proof. intros X f A a s b s' es H. inversion H; reflexivity. Qed.
  Lemma keeps_fail : forall X (f : rx -> X) A r, keeps f (fail (A := A) r).
  Proof. intros X f A r s b s' es H. discriminate. Qed.
  Lemma keeps_lift : forall X (f : rx -> X) A (m : res A), keeps f (lift m).
  Proof. intros X f A [a|r] s b s' es H; inversion H; reflexivity. Qed.
  Lemma keeps_get : forall X (f : rx -> X), keeps f get.
  Proof. intros X f s b s' es H. inversion H; reflexivity. Qed.
  Lemma keeps_modify : forall X (f : rx -> X) g, (forall r, f (g r) = f r) -> keeps f (modify g).
  Proof. intros X f g Hg s b s' es H. inversion H; subst. apply Hg. Qed.
  Lemma keeps_bind : forall X (f : rx -> X) A B (m : M A) (k : A -> M B),
      keeps f m -> (forall a, keeps f (k a)) -> keeps f (bind m k).
  Proof.
    intros X f A B m k Hm Hk s b s' es H. apply bind_inv in H.
    destruct H as (a & s1 & e1 & e2 & H1 & H2 & _).
    rewrite (Hk a s1 b s' e2 H2). exact (Hm s a s1 e1 H1).
  Qed.
  Lemma keeps_at : forall X (f : rx -> X) bs i, keeps f (at_ bs i).
  Proof. intros X f bs i. unfold at_. destruct (nth_error bs i); [apply keeps_ret|apply keeps_fail]. Qed.

  Lemma emits_ret : forall P A (a : A), emits P (ret a).
  Proof. intros P A a s b s' es H. inversion H. constructor. Qed.
  Lemma emits_fail : forall P A r, emits P (fail (A := A) r).
  Proof. intros P A r s b s' es H. discriminate. Qed.
  Lemma emits_lift : forall P A (m : res A), emits P (lift m).
  Proof. intros P A [a|r] s b s' es H; inversion H; constructor. Qed.
  Lemma emits_get : forall P, emits P get.
  Proof. intros P s b s' es H. inversion H. constructor. Qed.
  Lemma emits_modify : forall P g, emits P (modify g).
  Proof. intros P g s b s' es H. inversion H. constructor. Qed.
  Lemma emits_bind : forall P A B (m : M A) (k : A -> M B),
      emits P m -> (forall a, emits P (k a)) -> emits P (bind m k).
  Proof.
    intros P A B m k Hm Hk s b s' es H. apply bind_inv in H.
    destruct H as (a & s1 & e1 & e2 & H1 & H2 & ->).
    apply Forall_app. split; [exact (Hm _ _ _ _ H1)|exact (Hk _ _ _ _ _ H2)].
  Qed.
  Lemma emits_at : forall P bs i, emits P (at_ bs i).
  Proof. intros P bs i. unfold at_. destruct (nth_error bs i); [apply emits_ret|apply emits_fail]. Qed.
  Lemma emits_weaken : forall (P Q : event -> Prop) A (m : M A),
      (forall e, P e -> Q e) -> emits P m -> emits Q m.
  Proof. intros P Q A m H Hm s a s' es Hs. eapply Forall_impl; [exact H|exact (Hm _ _ _ _ Hs)]. Qed.

  Lemma wp_bind : forall A B (m : M A) (k : A -> M B) Q s,
      wp m (fun a s1 e1 => wp (k a) (fun b s2 e2 => Q b s2 (e1 ++ e2)) s1) s -> wp (bind m k) Q s.
  Proof.
    intros A B m k Q s. unfold wp, bind. destruct (m s) as [[[a s1] e1]|r]; [|exact (fun f => f)].
    destruct (k a s1) as [[[b s2] e2]|r]; exact (fun f => f).
  Qed.
  Lemma wlp_bind : forall A B (m : M A) (k : A -> M B) Q s,
      wlp m (fun a s1 e1 => wlp (k a) (fun b s2 e2 => Q b s2 (e1 ++ e2)) s1) s -> wlp (bind m k) Q s.
  Proof.
    intros A B m k Q s. unfold wlp, bind. destruct (m s) as [[[a s1] e1]|r]; [|trivial].
    destruct (k a s1) as [[[b s2] e2]|r]; exact (fun f => f).
  Qed.
  Lemma wp_ok : forall A (m : M A) (Q : A -> st I -> list event -> Prop) s a s' es, m s = Ok (a, s', es) -> Q a s' es -> wp m Q s.
  Proof. intros A m Q s a s' es H HQ. unfold wp. rewrite H. exact HQ. Qed.
  Lemma wp_inv : forall A (m : M A) (Q : A -> st I -> list event -> Prop) s, wp m Q s -> exists a s' es, m s = Ok (a, s', es) /\ Q a s' es.
  Proof.
    intros A m Q s H. unfold wp in H. destruct (m s) as [[[a s'] es]|r]; [|contradiction].
    exists a, s', es. auto.
  Qed.
  Lemma wlp_inv : forall A (m : M A) (Q : A -> st I -> list event -> Prop) s a s' es, wlp m Q s -> m s = Ok (a, s', es) -> Q a s' es.
  Proof. intros A m Q s a s' es H E. unfold wlp in H. rewrite E in H. exact H. Qed.
  Lemma wlp_intro : forall A (m : M A) (Q : A -> st I -> list event -> Prop) s,
      (forall a s' es, m s = Ok (a, s', es) -> Q a s' es) -> wlp m Q s.
  Proof. intros A m Q s H. unfold wlp. destruct (m s) as [[[a s'] es]|r] eqn:E; [apply H; reflexivity|exact Logic.I]. Qed.
  Lemma wp_mono : forall A (m : M A) (Q R : A -> st I -> list event -> Prop) s,
      (forall a s' es, Q a s' es -> R a s' es) -> wp m Q s -> wp m R s.
  Proof. intros A m Q R s H. unfold wp. destruct (m s) as [[[a s'] es]|r]; auto. Qed.

  Lemma run_app : forall (E : Env I) os1 os2 s s' es,
      run E (os1 ++ os2) s = Ok (tt, s', es) ->
      exists s1 e1 e2, run E os1 s = Ok (tt, s1, e1) /\ run E os2 s1 = Ok (tt, s', e2) /\ es = e1 ++ e2.
  Proof.
    intros E. induction os1 as [|o os1 IH]; intros os2 s s' es H.
    - exists s, [], es. auto.
    - cbn [List.app run] in H. apply bind_inv in H.
      destruct H as (b & s1 & e1 & e2 & H1 & H2 & ->).
      apply IH in H2. destruct H2 as (s2 & e3 & e4 & H3 & H4 & ->).
      exists s2, (e1 ++ e3), e4. split; [|split; [exact H4|apply app_assoc]].
      change (bind (step E o) (fun _ => run E os1) s = Ok (tt, s2, e1 ++ e3)).
      unfold bind at 1. rewrite H1, H3. reflexivity.
  Qed.

  Lemma run_app_ok : forall (E : Env I) os1 os2 s s1 e1 s2 e2,
      run E os1 s = Ok (tt, s1, e1) -> run E os2 s1 = Ok (tt, s2, e2) ->
      run E (os1 ++ os2) s = Ok (tt, s2, e1 ++ e2).
  Proof.
    intros E. induction os1 as [|o os1 IH]; intros os2 s s1 e1 s2 e2 H1 H2.
    - cbn in H1. inversion H1; subst. exact H2.
    - cbn [List.app run] in *. apply bind_inv in H1.
      destruct H1 as (b & s3 & e3 & e4 & Ha & Hb & ->).
      pose proof (IH os2 _ _ _ _ _ Hb H2) as H. change (bind (step E o) (fun _ => run E (os1 ++ os2)) s = Ok (tt, s2, (e3 ++ e4) ++ e2)).
      unfold bind at 1. rewrite Ha, H.
      rewrite app_assoc. reflexivity.
  Qed.
End Logic.

(** Application calls *)
Section Calls.
  Context {I : Type} (E : Env I).
  Ltac prim := intros; intros s0 r0 s1 es H0; cbv delta [readCv readCvByte readCvBit writeCv writeCvBit call rand now] beta in H0;
    try match type of H0 with (let '(_, _) := ?x in _) = _ => destruct x end;
    inversion H0; subst; try reflexivity; auto.
  Lemma keeps_readCv : forall X (f : rx -> X) cv, keeps f (readCv E cv). Proof. prim. Qed.
  Lemma keeps_readCvByte : forall X (f : rx -> X) cv b, keeps f (readCvByte E cv b). Proof. prim. Qed.
  Lemma keeps_readCvBit : forall X (f : rx -> X) cv b p, keeps f (readCvBit E cv b p). Proof. prim. Qed.
  Lemma keeps_writeCv : forall X (f : rx -> X) cv b, keeps f (writeCv E cv b). Proof. prim. Qed.
  Lemma keeps_writeCvBit : forall X (f : rx -> X) cv b p, keeps f (writeCvBit E cv b p). Proof. prim. Qed.
  Lemma keeps_call : forall X (f : rx -> X) e, keeps f (call E e). Proof. prim. Qed.
  Lemma keeps_rand : forall X (f : rx -> X), keeps f (rand E). Proof. prim. Qed.
  Lemma keeps_now : forall X (f : rx -> X), keeps f (now E). Proof. prim. Qed.
  Lemma emits_readCv : forall (P : event -> Prop) cv,
      (forall v, P (EReadCv cv v)) -> emits P (readCv E cv). Proof. prim. Qed.
  Lemma emits_readCvByte : forall (P : event -> Prop) cv b,
      (forall v, P (EReadCvByte cv b v)) -> emits P (readCvByte E cv b). Proof. prim. Qed.
  Lemma emits_readCvBit : forall (P : event -> Prop) cv b p,
      (forall v, P (EReadCvBit cv b p v)) -> emits P (readCvBit E cv b p). Proof. prim. Qed.
  Lemma emits_writeCv : forall (P : event -> Prop) cv b,
      (forall v, P (EWriteCv cv b v)) -> emits P (writeCv E cv b). Proof. prim. Qed.
  Lemma emits_writeCvBit : forall (P : event -> Prop) cv b p,
      (forall v, P (EWriteCvBit cv b p v)) -> emits P (writeCvBit E cv b p). Proof. prim. Qed.
  Lemma emits_call : forall (P : event -> Prop) e, P e -> emits P (call E e). Proof. prim. Qed.
  Lemma emits_rand : forall P, emits P (rand E). Proof. prim. Qed.
  Lemma emits_now : forall P, emits P (now E). Proof. prim. Qed.

  Lemma keeps_call_async : forall X (f : rx -> X) e c,
      (forall v, keeps f (run_cb E c v)) -> keeps f (call_async E e c).
  Proof.
    intros X f e c Hc s a s' es H. unfold call_async in H.
    destruct (e_async E (app s) e) as [[v|] i].
    - destruct (run_cb E c v _) as [[[u s1] e1]|r] eqn:Ec; [|discriminate].
      inversion H; subst. exact (Hc v _ _ _ _ Ec).
    - inversion H; reflexivity.
  Qed.
  Lemma emits_call_async : forall (P : event -> Prop) e c,
      P e -> (forall v, emits P (run_cb E c v)) -> emits P (call_async E e c).
  Proof.
    intros P e c He Hc s a s' es H. unfold call_async in H.
    destruct (e_async E (app s) e) as [[v|] i].
    - destruct (run_cb E c v _) as [[[u s1] e1]|r] eqn:Ec; [|discriminate].
      inversion H; subst. constructor; [exact He|exact (Hc v _ _ _ _ Ec)].
    - inversion H; subst. auto.
  Qed.
End Calls.

Ltac head_of m := lazymatch m with ?f _ => head_of f | _ => m end.

(** Structural decomposition of a goal [keeps f m] or [emits P m] *)
Ltac keeps1 :=
  lazymatch goal with
  | |- keeps _ (bind _ _) => apply keeps_bind; [|intro]
  | |- keeps _ (ret _) => apply keeps_ret
  | |- keeps _ (fail _) => apply keeps_fail
  | |- keeps _ (lift _) => apply keeps_lift
  | |- keeps _ get => apply keeps_get
  | |- keeps _ (at_ _ _) => apply keeps_at
  | |- keeps _ (readCv _ _) => apply keeps_readCv
  | |- keeps _ (readCvByte _ _ _) => apply keeps_readCvByte
  | |- keeps _ (readCvBit _ _ _ _) => apply keeps_readCvBit
  | |- keeps _ (writeCv _ _ _) => apply keeps_writeCv
  | |- keeps _ (writeCvBit _ _ _ _) => apply keeps_writeCvBit
  | |- keeps _ (call _ _) => apply keeps_call
  | |- keeps _ (rand _) => apply keeps_rand
  | |- keeps _ (now _) => apply keeps_now
  | |- keeps _ (call_async _ _ _) => apply keeps_call_async; intro
  | |- keeps _ (modify _) => apply keeps_modify; intro; reflexivity
  | |- keeps _ (when ?b _) => unfold when
  | |- keeps _ (if ?b then _ else _) => destruct b
  | |- keeps _ (match ?x with _ => _ end) => destruct x
  | |- keeps _ (let _ := _ in _) => cbv zeta
  | |- keeps _ ?m => let h := head_of m in unfold h
  end.
Ltac keeps_tac := repeat keeps1.
Ltac emits1 :=
  lazymatch goal with
  | |- emits _ (bind _ _) => apply emits_bind; [|intro]
  | |- emits _ (ret _) => apply emits_ret
  | |- emits _ (fail _) => apply emits_fail
  | |- emits _ (lift _) => apply emits_lift
  | |- emits _ get => apply emits_get
  | |- emits _ (at_ _ _) => apply emits_at
  | |- emits _ (readCv _ _) => apply emits_readCv; intro
  | |- emits _ (readCvByte _ _ _) => apply emits_readCvByte; intro
  | |- emits _ (readCvBit _ _ _ _) => apply emits_readCvBit; intro
  | |- emits _ (writeCv _ _ _) => apply emits_writeCv; intro
  | |- emits _ (writeCvBit _ _ _ _) => apply emits_writeCvBit; intro
  | |- emits _ (call _ _) => apply emits_call
  | |- emits _ (rand _) => apply emits_rand
  | |- emits _ (now _) => apply emits_now
  | |- emits _ (call_async _ _ _) => apply emits_call_async; [|intro]
  | |- emits _ (modify _) => apply emits_modify
  | |- emits _ (when ?b _) => unfold when
  | |- emits _ (if ?b then _ else _) => destruct b
  | |- emits _ (match ?x with _ => _ end) => destruct x
  | |- emits _ (let _ := _ in _) => cbv zeta
  | |- emits _ ?m => let h := head_of m in unfold h
  end.
Ltac emits_tac := repeat emits1.
