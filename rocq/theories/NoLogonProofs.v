(** Decoders without automatic logon ignore logon packets. *)
From Verif Require Import Prelude Address SpecCodec RxState Rx RxLogic SpecRx RxBitProofs RxBitProofs4
  SpecExec ExecProofs SpecConf ConfProofs SpecCv SpecLayout LayoutProofs LayoutProofs2 LayoutProofs3 LayoutProofs4
  Preempt PreemptData SpecPreempt PreemptProofs PreemptProofs2 PreemptProofs3 PreemptProofs4 SpecNoLogon.

Section Ignore.
  Context {I : Type} (E : Env I).
  Implicit Types s : st I.

  (** While automatic logon is off *)
  Definition ignores {A} (m : M (I := I) A) : Prop :=
    forall s a s' es, logon_off s -> m s = Ok (a, s', es) ->
    mask (rxs s') = mask (rxs s) /\ app s' = app s /\ pending s' = pending s /\ es = [] /\
    tos_deque (r_bidi (rxs s')) = tos_deque (r_bidi (rxs s)).
  Lemma off_mask : forall s s', mask (rxs s') = mask (rxs s) -> logon_off s -> logon_off s'.
  Proof. intros s s' H Ho. unfold mask in H. unfold logon_off in *. congruence. Qed.
  Lemma ignores_bind : forall A B (m : M (I := I) A) (k : A -> M B), ignores m -> (forall a, ignores (k a)) -> ignores (bind m k).
  Proof.
    intros A B m k Hm Hk s b s' es Ho H. apply bind_inv in H. destruct H as (a & s1 & e1 & e2 & H1 & H2 & ->).
    destruct (Hm _ _ _ _ Ho H1) as (A1 & A2 & A3 & A4 & A5). destruct (Hk _ _ _ _ _ (off_mask _ _ A1 Ho) H2) as (B1 & B2 & B3 & B4 & B5).
    subst. repeat split; congruence.
  Qed.
  Lemma ignores_ret : forall A (a : A), ignores (ret a).
  Proof. intros A a s b s' es Ho H. inversion H; subst. repeat split. Qed.
  Lemma ignores_get : ignores get.
  Proof. intros s b s' es Ho H. inversion H; subst. repeat split. Qed.
  Lemma ignores_fail : forall A u, ignores (fail (A := A) u).
  Proof. intros A u s b s' es Ho H. discriminate. Qed.
  Lemma ignores_lift : forall A (x : res A), ignores (lift x).
  Proof. intros A [a|u] s b s' es Ho H; [inversion H; subst; repeat split|discriminate]. Qed.
  Lemma ignores_at : forall bs i, ignores (at_ bs i).
  Proof. intros bs i. unfold at_. destruct (nth_error bs i); [apply ignores_ret|apply ignores_fail]. Qed.
  Lemma ignores_modify : forall f : rx -> rx, (forall r, mask (f r) = mask r) -> (forall r, tos_deque (r_bidi (f r)) = tos_deque (r_bidi r)) -> ignores (modify f).
  Proof. intros f F1 F2 s b s' es Ho H. inversion H; subst. cbn [rxs app pending]. auto. Qed.
  Lemma ignores_when : forall b (m : M (I := I) unit), ignores m -> ignores (when b m).
  Proof. intros [] m H; [exact H|apply ignores_ret]. Qed.
  (** A program that gives up at once *)
  Lemma ignores_off : forall A (c : rx -> bool) (a : A) (k : rx -> M A), (forall s, logon_off s -> c (rxs s) = true) ->
    ignores (bind get (fun r => if c r then ret a else k r)).
  Proof. intros A c a k Hc s b s' es Ho H. rewrite bind_get, (Hc s Ho) in H. inversion H; subst. repeat split. Qed.
  Lemma ignores_select : forall d, ignores (logonSelect d).
  Proof. intros d. apply (ignores_off _ (fun r => negb (logon_enabled (r_conf r)) || logon_assigned (r_logon r) || negb (list_eqb d (did (r_conf r))))). intros s ->. reflexivity. Qed.
  Lemma ignores_assign : forall d a ow, ignores (logonAssign d a ow).
  Proof. intros d a ow. apply (ignores_off _ (fun r => negb (logon_enabled (r_conf r)) || negb (list_eqb d (did (r_conf r))))). intros s ->. reflexivity. Qed.
  Lemma ignores_enable : forall g c i, ignores (logonEnable E g c i).
  Proof. intros g c i. apply (ignores_off _ (fun r => negb (logon_enabled (r_conf r)) || logon_selected (r_logon r))). intros s ->. reflexivity. Qed.
  Ltac ign :=
    lazymatch goal with
    | |- ignores (logonSelect _) => apply ignores_select
    | |- ignores (logonAssign _ _ _) => apply ignores_assign
    | |- ignores (logonEnable _ _ _ _) => apply ignores_enable
    | |- ignores (bind _ _) => apply ignores_bind; [|intro]
    | |- ignores (ret _) => apply ignores_ret
    | |- ignores get => apply ignores_get
    | |- ignores (fail _) => apply ignores_fail
    | |- ignores (lift _) => apply ignores_lift
    | |- ignores (at_ _ _) => apply ignores_at
    | |- ignores (modify _) => apply ignores_modify; intros; reflexivity
    | |- ignores (when _ _) => apply ignores_when
    | |- ignores (if ?b then _ else _) => destruct b
    | |- ignores (match ?x with _ => _ end) => destruct x
    | |- ignores (let _ := _ in _) => cbv zeta
    | |- ignores ?P => let h := head_of P in unfold h
    end.
  Lemma ignores_receive : forall t, ignores (receive E t).
  Proof. intros t. unfold receive. repeat ign. Qed.
End Ignore.
