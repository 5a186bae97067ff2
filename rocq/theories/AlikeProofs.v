(** The decoder depends on the application only through its answers *)
From Verif Require Import Prelude Address Instruction Checksum Datagram Speed Packets Backoff RxState Rx RxLogic SpecAlike.

Section Alike.
  Context {I1 I2 : Type} (E1 : Env I1) (E2 : Env I2) (R : I1 -> I2 -> Prop) (ok : event -> Prop)
    (HA : agree E1 E2 R ok).

  Definition same {A} (m1 : M (I := I1) A) (m2 : M (I := I2) A) : Prop := forall s t, alike R s t ->
    match m2 t with
    | Ok (a, t', es) => Forall ok es -> exists s', m1 s = Ok (a, s', es) /\ alike R s' t'
    | UB r => (forall e, ok e) -> m1 s = UB r
    end.

  Lemma same_ret : forall A (a : A), same (ret a) (ret a).
  Proof. intros A a s t H. cbn. intros _. exists s. auto. Qed.
  Lemma same_fail : forall A r, same (fail (A := A) r) (fail r).
  Proof. intros A r s t H. cbn. auto. Qed.
  Lemma same_lift : forall A (m : res A), same (lift m) (lift m).
  Proof. intros A [a|r] s t H; cbn; auto. intros _. exists s. auto. Qed.
  Lemma same_get : same get get.
  Proof. intros s t H. cbn. intros _. exists s. split; [|exact H]. destruct H as [E _]. unfold get. rewrite E. reflexivity. Qed.
  Lemma same_modify : forall f, same (modify f) (modify f).
  Proof.
    intros f s t (H1 & H2 & H3). cbn. intros _. eexists. split; [reflexivity|]. repeat split; cbn; congruence || assumption.
  Qed.
  Lemma same_at : forall bs i, same (at_ bs i) (at_ bs i).
  Proof. intros bs i. unfold at_. destruct (nth_error bs i); [apply same_ret|apply same_fail]. Qed.
  Lemma same_bind : forall A B (m1 : M A) (m2 : M A) (k1 : A -> M B) (k2 : A -> M B),
    same m1 m2 -> (forall a, same (k1 a) (k2 a)) -> same (bind m1 k1) (bind m2 k2).
  Proof.
    intros A B m1 m2 k1 k2 Hm Hk s t H. specialize (Hm s t H). unfold bind.
    destruct (m2 t) as [[[a t1] e1]|r].
    - specialize (Hk a). destruct (k2 a t1) as [[[b t2] e2]|r] eqn:Ek.
      + intros Hok. apply Forall_app in Hok. destruct Hok as [Ho1 Ho2]. destruct (Hm Ho1) as (s1 & E & Hs1).
        specialize (Hk s1 t1 Hs1). rewrite Ek in Hk. destruct (Hk Ho2) as (s2 & E' & Hs2).
        exists s2. rewrite E, E'. auto.
      + intros Hall. destruct Hm as (s1 & E & Hs1); [apply Forall_forall; auto|].
        specialize (Hk s1 t1 Hs1). rewrite Ek in Hk. rewrite E, (Hk Hall). reflexivity.
    - intros Hall. rewrite (Hm Hall). reflexivity.
  Qed.

  Lemma same_readCv : forall a, same (readCv E1 a) (readCv E2 a).
  Proof.
    intros a s t (H1 & H2 & H3). unfold readCv. pose proof (ag_read _ _ _ _ HA _ _ a H3) as H.
    destruct (e_readCv E2 (app t) a) as [v j], (e_readCv E1 (app s) a) as [w i]. cbn [fst snd] in H.
    intros Ho. apply Forall_inv in Ho. destruct (H Ho) as [-> HR]. rewrite H1, H2. eexists. split; [reflexivity|]. repeat split; auto.
  Qed.
  Lemma same_readCvByte : forall a b, same (readCvByte E1 a b) (readCvByte E2 a b).
  Proof.
    intros a b s t (H1 & H2 & H3). unfold readCvByte. pose proof (ag_readByte _ _ _ _ HA _ _ a b H3) as H.
    destruct (e_readCvByte E2 (app t) a b) as [v j], (e_readCvByte E1 (app s) a b) as [w i]. cbn [fst snd] in H.
    intros Ho. apply Forall_inv in Ho. destruct (H Ho) as [-> HR]. rewrite H1, H2. eexists. split; [reflexivity|]. repeat split; auto.
  Qed.
  Lemma same_readCvBit : forall a b k, same (readCvBit E1 a b k) (readCvBit E2 a b k).
  Proof.
    intros a b k s t (H1 & H2 & H3). unfold readCvBit. pose proof (ag_readBit _ _ _ _ HA _ _ a b k H3) as H.
    destruct (e_readCvBit E2 (app t) a b k) as [v j], (e_readCvBit E1 (app s) a b k) as [w i]. cbn [fst snd] in H.
    intros Ho. apply Forall_inv in Ho. destruct (H Ho) as [-> HR]. rewrite H1, H2. eexists. split; [reflexivity|]. repeat split; auto.
  Qed.
  Lemma same_writeCv : forall a b, same (writeCv E1 a b) (writeCv E2 a b).
  Proof.
    intros a b s t (H1 & H2 & H3). unfold writeCv. pose proof (ag_write _ _ _ _ HA _ _ a b H3) as H.
    destruct (e_writeCv E2 (app t) a b) as [v j], (e_writeCv E1 (app s) a b) as [w i]. cbn [fst snd] in H.
    intros Ho. apply Forall_inv in Ho. destruct (H Ho) as [-> HR]. rewrite H1, H2. eexists. split; [reflexivity|]. repeat split; auto.
  Qed.
  Lemma same_writeCvBit : forall a b k, same (writeCvBit E1 a b k) (writeCvBit E2 a b k).
  Proof.
    intros a b k s t (H1 & H2 & H3). unfold writeCvBit. pose proof (ag_writeBit _ _ _ _ HA _ _ a b k H3) as H.
    destruct (e_writeCvBit E2 (app t) a b k) as [v j], (e_writeCvBit E1 (app s) a b k) as [w i]. cbn [fst snd] in H.
    intros Ho. apply Forall_inv in Ho. destruct (H Ho) as [-> HR]. rewrite H1, H2. eexists. split; [reflexivity|]. repeat split; auto.
  Qed.
  Lemma same_call : forall e, same (call E1 e) (call E2 e).
  Proof.
    intros e s t (H1 & H2 & H3). unfold call. intros Ho. apply Forall_inv in Ho. rewrite H1, H2.
    eexists. split; [reflexivity|]. repeat split. exact (ag_hook _ _ _ _ HA _ _ e H3 Ho).
  Qed.
  Lemma same_rand : same (rand E1) (rand E2).
  Proof.
    intros s t (H1 & H2 & H3). unfold rand. pose proof (ag_rand _ _ _ _ HA _ _ H3) as H.
    destruct (e_rand E2 (app t)) as [v j], (e_rand E1 (app s)) as [w i]. cbn [fst snd] in H.
    intros _. destruct H as [-> HR]. rewrite H1, H2. eexists. split; [reflexivity|]. repeat split; auto.
  Qed.
  Lemma same_now : same (now E1) (now E2).
  Proof.
    intros s t (H1 & H2 & H3). unfold now. pose proof (ag_now _ _ _ _ HA _ _ H3) as H.
    destruct (e_now E2 (app t)) as [v j], (e_now E1 (app s)) as [w i]. cbn [fst snd] in H.
    intros _. destruct H as [-> HR]. rewrite H1, H2. eexists. split; [reflexivity|]. repeat split; auto.
  Qed.
  Lemma same_call_async : forall e c, e_async_readable E2 = true \/ e_async_writable E2 = true -> (forall v, same (run_cb E1 c v) (run_cb E2 c v)) ->
    same (call_async E1 e c) (call_async E2 e c).
  Proof.
    intros e c Hy Hc s t (H1 & H2 & H3). unfold call_async. pose proof (ag_async _ _ _ _ HA Hy _ _ e H3) as H.
    destruct (e_async E2 (app t) e) as [[v|] j]; destruct (e_async E1 (app s) e) as [w i]; cbn [fst snd] in H.
    - assert (Hal : R i j -> alike R (Mk_st (rxs s) i (pending s)) (Mk_st (rxs t) j (pending t))).
      { intros HR. repeat split; cbn; auto. }
      destruct (run_cb E2 c v (Mk_st (rxs t) j (pending t))) as [[[u t'] es]|r] eqn:Er.
      + intros Ho. inversion Ho as [|? ? Ho1 Ho2]; subst. destruct (H Ho1) as [-> HR].
        specialize (Hc v _ _ (Hal HR)). rewrite Er in Hc. destruct (Hc Ho2) as (s' & E & Hs'). exists s'. rewrite E. auto.
      + intros Hall. destruct (H (Hall e)) as [-> HR]. specialize (Hc v _ _ (Hal HR)). rewrite Er in Hc. rewrite (Hc Hall). reflexivity.
    - intros Ho. apply Forall_inv in Ho. destruct (H Ho) as [-> HR]. eexists. split; [reflexivity|]. repeat split; cbn; congruence || auto.
  Qed.

  Ltac same1 :=
    lazymatch goal with
    | |- same (bind _ _) (bind _ _) => apply same_bind; [|intro]
    | |- same (ret _) _ => apply same_ret
    | |- same (fail _) _ => apply same_fail
    | |- same (lift _) _ => apply same_lift
    | |- same get _ => apply same_get
    | |- same (at_ _ _) _ => apply same_at
    | |- same (readCv _ _) _ => apply same_readCv
    | |- same (readCvByte _ _ _) _ => apply same_readCvByte
    | |- same (readCvBit _ _ _ _) _ => apply same_readCvBit
    | |- same (writeCv _ _ _) _ => apply same_writeCv
    | |- same (writeCvBit _ _ _ _) _ => apply same_writeCvBit
    | |- same (call _ _) _ => apply same_call
    | |- same (rand _) _ => apply same_rand
    | |- same (now _) _ => apply same_now
    | |- same (call_async _ _ _) _ => apply same_call_async; [auto; fail|intro]
    | |- same (modify _) _ => apply same_modify
    | |- same (when ?b _) (when ?b _) => unfold when
    | |- same (if ?b then _ else _) (if ?b then _ else _) => destruct b eqn:?
    | |- same (match ?x with _ => _ end) _ => destruct x
    | |- same (let _ := _ in _) _ => cbv zeta
    | |- same ?m _ => let h := head_of m in unfold h; rewrite ?(ag_readable _ _ _ _ HA), ?(ag_writable _ _ _ _ HA), ?(ag_high _ _ _ _ HA), ?(ag_east _ _ _ _ HA)
    end.
  Ltac same_tac := repeat same1.

  Lemma same_dyn_all : forall ds, same (dyn_all ds) (dyn_all ds).
  Proof. induction ds as [|d ds IH]; cbn [dyn_all]; [apply same_ret|]. apply same_bind; [|intro; exact IH]. same_tac. Qed.

  Lemma same_step : forall o, same (step E1 o) (step E2 o).
  Proof.
    intros [ | | |t| |ds| | |k v]; cbn [step].
    1-5,7-8: same_tac.
    - repeat first [apply same_dyn_all | same1].
    - intros s t H. pose proof H as (_ & Hp & _). rewrite Hp. destruct (nth_error (pending t) k) as [c|].
      + assert (Hs : same (bind (run_cb E1 c v) (fun _ => ret false)) (bind (run_cb E2 c v) (fun _ => ret false))) by same_tac.
        exact (Hs s t H).
      + intros _. exists s. auto.
  Qed.

  Lemma same_run : forall os, same (run E1 os) (run E2 os).
  Proof. induction os as [|o os IH]; cbn [run]; [apply same_ret|]. apply same_bind; [apply same_step|intro; exact IH]. Qed.
End Alike.

Lemma runs_alike : forall (I1 I2 : Type) (E1 : Env I1) (E2 : Env I2) (R : I1 -> I2 -> Prop) (ok : event -> Prop),
  agree E1 E2 R ok -> forall os i j t es, R i j -> run E2 os (st0 j) = Ok (tt, t, es) -> Forall ok es ->
  exists s, run E1 os (st0 i) = Ok (tt, s, es) /\ rxs s = rxs t /\ pending s = pending t /\ R (app s) (app t).
Proof.
  intros I1 I2 E1 E2 R ok HA os i j t es HR Hrun Hes.
  pose proof (same_run E1 E2 R ok HA os (st0 i) (st0 j) (conj eq_refl (conj eq_refl HR))) as H. rewrite Hrun in H.
  exact (H Hes).
Qed.

Lemma undefined_alike : forall (I1 I2 : Type) (E1 : Env I1) (E2 : Env I2) (R : I1 -> I2 -> Prop),
  agree E1 E2 R (fun _ => True) -> forall os i j, R i j ->
  forall r, run E1 os (st0 i) = UB r <-> run E2 os (st0 j) = UB r.
Proof.
  intros I1 I2 E1 E2 R HA os i j HR r.
  pose proof (same_run E1 E2 R _ HA os (st0 i) (st0 j) (conj eq_refl (conj eq_refl HR))) as H.
  destruct (run E2 os (st0 j)) as [[[[] t] es]|r2].
  - destruct H as (s & H & _); [apply Forall_forall; intros; exact Logic.I|]. rewrite H. split; intros Hx; discriminate Hx.
  - rewrite H by (intros; exact Logic.I). split; intros Hx; injection Hx as ->; reflexivity.
Qed.
