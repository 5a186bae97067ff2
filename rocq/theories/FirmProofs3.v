(** Interrupted executions are defined. *)
From Verif Require Import Prelude Address Instruction Checksum Datagram RxState Rx ZBits RxLogic RxInv SpecCodec SpecRx RxBitProofs RxBitProofs2 RxBitProofs3 RxBitProofs4
  SpecExec ExecProofs SpecConf SpecCv CvProofs2 SaneProofs SpecLogon LogonProofs LogonProofs2 LogonProofs3 LogonProofs4
  SpecBidi BidiProofs BidiProofs2 BidiProofs3 BidiProofs4 BidiProofs6 BidiProofs8 BidiProofs9 OfferProofs SpecSafe SafeProofs SafeProofs2 Preempt SpecPreempt
  PreemptProofs PreemptProofs2 PreemptProofs3 PreemptProofs4 StaleProofs TellProofs3 SpecFirm FirmProofs FirmProofs2.

Lemma by_rules_app : forall sent a b l due, by_rules sent (a ++ b) l due <-> by_rules sent a l due /\ by_rules sent b (listen_all a l) (owes_all a l due).
Proof.
  induction a as [|o a IH]; intros b l due; [cbn; tauto|]. cbn [List.app by_rules owes_all]. rewrite IH. 
  change (listen_all (o :: a) l) with (listen_all a (listen o l)). tauto.
Qed.
Lemma by_rules_weaken : forall (P Q : list Z -> Prop), (forall p, P p -> Q p) -> forall os l due, by_rules P os l due -> by_rules Q os l due.
Proof.
  intros P Q H. induction os as [|o os IH]; intros l due; [auto|]. intros [H1 H2]. split; [|exact (IH _ _ H2)].
  destruct o; auto. destruct H1 as (A & B & C). repeat split; auto.
Qed.
Lemma owes_all_app : forall a b l due, owes_all (a ++ b) l due = owes_all b (listen_all a l) (owes_all a l due).
Proof. induction a as [|o a IH]; intros b l due; [reflexivity|]. cbn [List.app owes_all]. rewrite IH. reflexivity. Qed.
Lemma skipn_both : forall A n m (l : list A), skipn (n + m) l = skipn m (skipn n l).
Proof. induction n as [|n IH]; intros m l; [reflexivity|]. destruct l; [rewrite !skipn_nil; reflexivity|exact (IH m l)]. Qed.
Lemma concat_hd : forall (w : list (list op)), concat w = hd [] w ++ concat (tl w).
Proof. intros [|x w]; reflexivity. Qed.
Section Calm.
  Context {I : Type} (E : Env I).
  Implicit Types s : st I.

  (** What interrupt handlers need *)
  Definition view (r : rx) := (dyn_deque (r_bidi r), ch2 (r_bidi r), logon_deque (r_logon r), received (r_addrs r)).
  Record calm (l : listener) (due : bool) s : Prop := {
    c_listen : Rl l s;
    c_stock : stocked (rxs s);
    c_owing : owing due s;
    c_held : held (rxs s)
  }.
  Lemma calm_keeps : forall l due s s', core (rxs s') = core (rxs s) -> view (rxs s') = view (rxs s) -> calm l due s -> calm l due s'.
  Proof.
    intros l due s s' Hc Hv [A B C D]. constructor.
    - exact (Rl_core _ _ _ Hc A).
    - unfold view in Hv. injection Hv as H1 H2 H3 H4. unfold stocked. rewrite H1, H2. exact B.
    - unfold view in Hv. injection Hv as H1 H2 H3 H4. apply (owing_view due s s'); [unfold logon_view; congruence|exact C].
    - unfold core in Hc. injection Hc as H1 _ _. exact (held_ear _ _ H1 D).
  Qed.

  Lemma view_biDi1 : keeps view (biDiChannel1 E).
  Proof.
    assert (L : keeps view (appLogon E 1)).
    { unfold appLogon. apply keeps_bind; [apply keeps_get|intro r]. destruct (logon_deque (r_logon r)); [apply keeps_ret|].
      change (1 =? 1) with true. cbn iota. keeps_tac. }
    unfold biDiChannel1. apply keeps_bind; [apply keeps_get|intro r]. destruct (atyp (received (r_addrs r))); try exact L; keeps_tac.
  Qed.
  (** Forwards through an interrupted program *)
  Lemma preempted_act : forall A B m (k : B -> prog A) w s s1 e1 b s2 e2 a sn sv s' e3,
    run E (hd [] w) s = Ok (tt, s1, e1) -> m s1 = Ok (b, s2, e2) -> preempted E (k b) (tl w) s2 = Ok ((a, sn, sv), s', e3) ->
    preempted E (Act B m k) w s = Ok ((a, r_deque (rxs s1) :: sn, hd [] w ++ sv), s', e1 ++ e2 ++ e3).
  Proof.
    intros A B m k w s s1 e1 b s2 e2 a sn sv s' e3 H1 H2 H3. cbn [preempted]. unfold bind at 1. rewrite H1. rewrite bind_get. unfold bind at 1. rewrite H2.
    unfold bind at 1. rewrite H3. unfold ret. rewrite app_nil_r. reflexivity.
  Qed.
  Lemma preempted_then : forall A C (P : prog A) (k : A -> prog C) w s a sn1 sv1 s1 e1 c sn2 sv2 s' e2,
    preempted E P w s = Ok ((a, sn1, sv1), s1, e1) -> preempted E (k a) (skipn (length sn1) w) s1 = Ok ((c, sn2, sv2), s', e2) ->
    preempted E (pbind P k) w s = Ok ((c, sn1 ++ sn2, sv1 ++ sv2), s', e1 ++ e2).
  Proof.
    intros A C P k. induction P as [a|B m h IH]; intros w s a' sn1 sv1 s1 e1 c sn2 sv2 s' e2 H1 H2.
    - inversion H1; subst. exact H2.
    - apply preempted_inv in H1. destruct H1 as (t1 & f1 & b & t2 & f2 & a0 & sn & sv & f3 & K1 & K2 & K3 & Ho & ->).
      injection Ho as -> -> ->. cbn [length] in H2.
      replace (skipn (S (length sn)) w) with (skipn (length sn) (tl w)) in H2 by (destruct w; [rewrite !skipn_nil; reflexivity|reflexivity]).
      cbn [pbind]. rewrite <- !app_assoc. rewrite <- app_comm_cons. 
      exact (preempted_act _ _ _ _ _ _ _ _ _ _ _ _ _ _ _ _ K1 K2 (IH _ _ _ _ _ _ _ _ _ _ _ _ _ K3 H2)).
  Qed.
End Calm.
