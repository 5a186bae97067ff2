(** CV answers waiting for channel 2 during interrupted executions. *)
From Verif Require Import Prelude Address Instruction SpecCodec Datagram RxState Rx RxLogic SpecRx SpecConf SpecBidi RxBitProofs RxBitProofs4 ExecProofs
  LogonProofs4 BidiProofs BidiProofs3 Preempt SpecPreempt PreemptProofs PreemptProofs2 PreemptProofs3 PreemptProofs4 SpecOffer OfferProofs2.

Definition pom_of (r : rx) : list (list Z) := pom_deque (r_bidi r).

Ltac leaf_keeps :=
  lazymatch goal with
  | |- keeps _ (gets _) => intros ? ? ? ? H; inversion H; reflexivity
  | |- keeps _ (ask _ _ _) => intros ? ? ? ? H; unfold ask in H;
      destruct (e_async _ _ _) as [[?|] ?]; inversion H; reflexivity
  | |- keeps _ front => intros s0 ? ? ? H; unfold front in H;
      destruct (r_deque (rxs s0)); inversion H; reflexivity
  | |- keeps _ (front_at _ _) => intros s0 ? ? ? H; unfold front_at in H;
      destruct (r_deque (rxs s0)); [discriminate|];
      destruct (nth_error _ _); inversion H; reflexivity
  | |- keeps _ (front_size _) => intros s0 ? ? ? H; unfold front_size in H;
      destruct (r_deque (rxs s0)); inversion H; reflexivity
  | |- keeps _ front_address => intros s0 ? ? ? H; unfold front_address in H;
      destruct (r_deque (rxs s0)); [discriminate|];
      destruct (decode_address _); inversion H; reflexivity
  | |- keeps _ (front_instruction _) => intros s0 ? ? ? H; unfold front_instruction in H;
      destruct (r_deque (rxs s0)); [discriminate|];
      destruct (Instruction.decode_instruction _); inversion H; reflexivity
  | |- _ => keeps_tac
  end.

Section Stale.
  Context {I : Type} (E : Env I).
  Hypothesis deaf : forall i d, e_hook E i (ETransmitBiDi d) = i.
  Variable p : list Z.
  Implicit Types s : st I.

  (** Some of the answers waiting in [s] are gone in [s'] *)
  Definition faded s s' : Prop := exists n, cv_waiting s' = skipn n (cv_waiting s).
  Lemma faded_refl : forall s, faded s s.
  Proof. intros s. exists 0%nat. reflexivity. Qed.
  Lemma skipn_skipn' : forall A n m (l : list A), skipn n (skipn m l) = skipn (m + n) l.
  Proof. intros A n m. induction m as [|m IH]; intros [|x l]; cbn [skipn Nat.add]; auto. destruct n; reflexivity. Qed.
  Lemma faded_trans : forall s s1 s2, faded s s1 -> faded s1 s2 -> faded s s2.
  Proof. intros s s1 s2 [n Hn] [m Hm]. exists (n + m)%nat. rewrite Hm, Hn. apply skipn_skipn'. Qed.

  Lemma faded_keeps : forall s s', pom_of (rxs s') = pom_of (rxs s) -> faded s s'.
  Proof. intros s s' H. exists 0%nat. exact H. Qed.

  (** ** The handlers *)
  Lemma pom_biDi2 : forall s u s' es, biDiChannel2 E s = Ok (u, s', es) -> faded s s'.
  Proof.
    intros s u s' es H. unfold biDiChannel2 in H. rewrite bind_get in H. cbv zeta in H.
    assert (D : keeps pom_of (appDyn E)) by keeps_tac. assert (T : keeps pom_of (appTos E)) by keeps_tac.
    assert (L : keeps pom_of (appLogon E 2)) by keeps_tac.
    assert (P : forall s u s' es, appPom E s = Ok (u, s', es) -> faded s s').
    { clear. intros s u s' es H. unfold appPom in H. rewrite bind_get in H.
      destruct (negb _); [inversion H; subst; apply faded_refl|].
      destruct (negb _); [unfold call in H; inversion H; subst; apply faded_keeps; reflexivity|].
      destruct (pom_deque (r_bidi (rxs s))) as [|d q] eqn:Eq; [inversion H; subst; apply faded_refl|].
      unfold bind, modify, get, call in H. inversion H; subst. exists 1%nat. unfold cv_waiting. cbn [rxs]. rewrite Eq. reflexivity. }
    assert (A : forall i, (match i with ICvLong => appPom E | _ => appDyn E end) s = Ok (u, s', es) -> faded s s').
    { intros i X. destruct i; try (apply faded_keeps; exact (D _ _ _ _ X)). exact (P _ _ _ _ X). }
    assert (O : (if addr_eqb (received (r_addrs (rxs s)))
             (if logon_assigned (r_logon (rxs s)) then logon (r_addrs (rxs s)) else primary (r_addrs (rxs s))) then
          bind (lift (decode_instruction_packet (f_packet (r_fsm (rxs s))))) (fun i => match i with ICvLong => appPom E | _ => appDyn E end)
        else if addr_eqb (received (r_addrs (rxs s))) (consist (r_addrs (rxs s))) && ch2_consist_enabled (r_conf (rxs s))
        then appDyn E else ret tt) s = Ok (u, s', es) -> faded s s').
    { intros X. destruct (addr_eqb _ _).
      - destruct (decode_instruction_packet _) as [i|r]; [|discriminate]. rewrite ExecProofs.bind_lift in X. exact (A _ X).
      - destruct (_ && _); [apply faded_keeps; exact (D _ _ _ _ X)|inversion X; subst; apply faded_refl]. }
    destruct (atyp (received (r_addrs (rxs s)))); try (inversion H; subst; apply faded_refl); try exact (O H).
    - apply faded_keeps. exact (T _ _ _ _ H).
    - apply faded_keeps. exact (L _ _ _ _ H).
  Qed.
  Lemma pom_handler : forall o s b s' es, handler o -> step E o s = Ok (b, s', es) -> faded s s'.
  Proof.
    intros o s b s' es Ho H. destruct o; try destruct Ho; cbn [step] in H.
    - assert (keeps pom_of (bind (receive E time) (fun _ => ret false))) as K by keeps_tac. apply faded_keeps. exact (K _ _ _ _ H).
    - assert (keeps pom_of (bind (biDiChannel1 E) (fun _ => ret false))) as K by keeps_tac. apply faded_keeps. exact (K _ _ _ _ H).
    - apply bind_inv in H. destruct H as (u & s1 & e1 & e2 & H1 & H2 & ->). inversion H2; subst. exact (pom_biDi2 _ _ _ _ H1).
  Qed.
  Lemma pom_handlers : forall os s s' es, Forall handler os -> run E os s = Ok (tt, s', es) -> faded s s'.
  Proof.
    induction os as [|o os IH]; intros s s' es N H; [inversion H; subst; apply faded_refl|].
    inversion N as [|? ? N1 N2]; subst. cbn [run] in H. apply bind_inv in H. destruct H as (b & s1 & e1 & e2 & H1 & H2 & _).
    apply faded_trans with s1; [exact (pom_handler _ _ _ _ _ N1 H1)|exact (IH _ _ _ N2 H2)].
  Qed.

  (** Every handler of a sequence finds what was there before, apart from answers *)
  Definition like t (m : moment (I := I)) : Prop := mask (rxs (fst (fst m))) = mask (rxs t) /\ faded t (fst (fst m)).
  Lemma handlers_like : forall os l s s' s1 es,
    Forall handler os -> no_logon os l -> Rl l s' -> near s s' -> faded s s' ->
    run E os s' = Ok (tt, s1, es) -> Forall (like s) (moments E os s').
  Proof.
    induction os as [|o os IH]; intros l s s' s1 es Hh Hn HR Ha Hf H; [constructor|].
    inversion Hh as [|? ? Ho Hos]; subst. destruct Hn as [Hn1 Hn2]. cbn [run] in H.
    apply bind_inv in H. destruct H as (b & s2 & e1 & e2 & H1 & H2 & ->).
    pose proof (step_refines E _ _ _ _ _ _ HR H1) as HR2. cbn [moments]. rewrite H1.
    constructor; [split; [apply Ha|exact Hf]|].
    assert (R1 : run E [o] s' = Ok (tt, s2, e1)) by (cbn [run]; unfold bind; rewrite H1; cbn [ret]; rewrite app_nil_r; reflexivity).
    destruct (handlers_near E deaf [o] l s s' s2 e1) as [Ha2 _]; auto; [split; [exact Hn1|exact Logic.I]|].
    apply (IH (listen o l) s s2 s1 e2); auto. apply faded_trans with s'; [exact Hf|]. exact (pom_handler _ _ _ _ _ Ho H1).
  Qed.
  Lemma alike_near : forall s s', alike p s s' -> near s s'.
  Proof. intros s s' (A1 & A2 & A3 & _ & _ & A6). repeat split; auto. Qed.

  (** ** Programs *)

  (** The states before the steps of a program that is not interrupted *)
  Fixpoint stages {A} (P : prog (I := I) A) s : list (st I) :=
    match P with
    | Done _ => []
    | Act B m k => s :: match m s with Ok (b, s1, _) => stages (k b) s1 | UB _ => [] end
    end.
  Lemma stages_pbind : forall A C (P : prog A) (k : A -> prog C) s a s1 es, flat P s = Ok (a, s1, es) ->
    stages (pbind P k) s = stages P s ++ stages (k a) s1.
  Proof.
    intros A C P k. induction P as [a0|B m h IH]; intros s a s1 es H.
    - inversion H; subst. reflexivity.
    - cbn [flat] in H. unfold bind in H. cbn [pbind stages List.app]. f_equal.
      destruct (m s) as [[[b s2] e2]|]; [|discriminate].
      destruct (flat (h b) s2) as [[[a1 s3] e3]|] eqn:Eh; [|discriminate]. inversion H; subst. exact (IH _ _ _ _ _ Eh).
  Qed.

  (** [P] does the same with interrupts as without; what the handlers find meanwhile is
      what some step finds that is not interrupted, apart from answers *)
  Definition follows {A} (P : prog (I := I) A) : Prop :=
    forall w l s s' a sn sv s1' es',
    Forall (Forall handler) w -> no_logon sv l -> Rl l s' -> alike p s s' -> faded s s' ->
    preempted E P w s' = Ok ((a, sn, sv), s1', es') ->
    Rl (listen_all sv l) s1' /\
    exists s1 es, flat P s = Ok (a, s1, es) /\ alike p s1 s1' /\ faded s1 s1' /\ commands es' = es /\
    Forall (fun m => exists t, In t (stages P s) /\ like t m) (meanwhile E P w s').

  Definition dims (B : Type) (m : M (I := I) B) : Prop :=
    forall s s' a s1 e1 a' s1' e1', alike p s s' -> faded s s' -> m s = Ok (a, s1, e1) -> m s' = Ok (a', s1', e1') -> faded s1 s1'.
  Definition leafy (B : Type) (m : M (I := I) B) : Prop := blind p B m /\ dims B m.
  Lemma dims_keeps : forall B (m : M B), keeps pom_of m -> dims B m.
  Proof.
    intros B m K s s' a s1 e1 a' s1' e1' _ [n Hn] H1 H2. exists n. pose proof (K _ _ _ _ H1) as K1. pose proof (K _ _ _ _ H2) as K2.
    unfold pom_of in *. unfold cv_waiting in *. rewrite K1, K2. exact Hn.
  Qed.
  Lemma dims_clear : dims unit (modify (set_pom_deque [])).
  Proof. intros s s' a s1 e1 a' s1' e1' _ _ H1 H2. inversion H1; subst. inversion H2; subst. exists 0%nat. reflexivity. Qed.

  Lemma follows_acts : forall A (P : prog A), acts leafy P -> follows P.
  Proof.
    intros A P. induction P as [a|B m k IH]; intros HP w l s s' a' sn sv s1' es' Hw Hn HR Ha Hf H.
    - inversion H; subst. split; [exact HR|]. exists s, []. repeat split; auto; try apply Ha. constructor.
    - destruct HP as [[[Hk Hm] Hd] HP]. apply preempted_inv in H.
      destruct H as (s2 & e1 & b & s3 & e2 & a0 & sn1 & sv1 & e3 & H1 & H2 & H3 & Ho & ->).
      injection Ho as -> -> ->. apply no_logon_app in Hn. destruct Hn as [Hn1 Hn2].
      pose proof (handlers_hd w Hw) as Hh.
      destruct (handlers_alike E deaf p _ _ _ _ _ _ Hh Hn1 HR Ha H1) as [Ha2 He1].
      pose proof (handlers_like _ _ _ _ _ _ Hh Hn1 HR (alike_near _ _ Ha) Hf H1) as HL.
      assert (Hf2 : faded s s2) by (apply faded_trans with s'; [exact Hf|exact (pom_handlers _ _ _ _ Hh H1)]).
      pose proof (run_refines E _ _ _ _ _ HR H1) as HR2.
      pose proof (Rl_core _ _ _ (Hk _ _ _ _ H2) HR2) as HR3.
      specialize (Hm _ _ Ha2). rewrite H2 in Hm.
      destruct (m s) as [[[b' s4] e4]|u] eqn:Em; [|contradiction].
      destruct Hm as (-> & -> & Ha3 & Hfe).
      pose proof (Hd _ _ _ _ _ _ _ _ Ha2 Hf2 Em H2) as Hf3.
      destruct (IH b (HP b) _ _ _ _ _ _ _ _ _ (handlers_tl w Hw) Hn2 HR3 Ha3 Hf3 H3) as (HR4 & s5 & es & H5 & Ha5 & Hf5 & He & Hmo).
      split; [rewrite listen_all_app; exact HR4|]. exists s5, (e2 ++ es).
      split; [cbn [flat]; unfold bind; rewrite Em, H5; reflexivity|]. split; [exact Ha5|]. split; [exact Hf5|]. split.
      + rewrite !commands_app, He1, He, (commands_all e2) by exact Hfe. reflexivity.
      + cbn [meanwhile stages]. rewrite H1, H2, Em. apply Forall_app. split.
        * eapply Forall_impl; [|exact HL]. intros x Hx. exists s. split; [left; reflexivity|exact Hx].
        * eapply Forall_impl; [|exact Hmo]. intros x (t & Ht & Hx). exists t. split; [right; exact Ht|exact Hx].
  Qed.
  Lemma follows_bind : forall A C (P : prog A) (k : A -> prog C),
    follows P -> (forall a, follows (k a)) -> follows (pbind P k).
  Proof.
    intros A C P k HP Hk w l s s' c sn sv s1' es' Hw Hn HR Ha Hf H. apply preempted_pbind in H.
    destruct H as (a & sn1 & sv1 & s1 & e1 & c' & sn2 & sv2 & e2 & H1 & H2 & Ho & ->).
    injection Ho as -> -> ->. apply no_logon_app in Hn. destruct Hn as [Hn1 Hn2].
    destruct (HP _ _ _ _ _ _ _ _ _ Hw Hn1 HR Ha Hf H1) as (HR1 & s2 & es1 & F1 & Ha1 & Hf1 & He1 & Hm1).
    destruct (Hk a _ _ _ _ _ _ _ _ _ (handlers_skipn _ _ Hw) Hn2 HR1 Ha1 Hf1 H2) as (HR2 & s3 & es2 & F2 & Ha2 & Hf2 & He2 & Hm2).
    split; [rewrite listen_all_app; exact HR2|]. exists s3, (es1 ++ es2).
    split; [rewrite flat_pbind; unfold bind; rewrite F1, F2; reflexivity|]. split; [exact Ha2|]. split; [exact Hf2|]. split.
    - rewrite commands_app, He1, He2. reflexivity.
    - rewrite (meanwhile_pbind E _ _ _ _ _ _ _ _ _ _ _ H1), (stages_pbind _ _ _ _ _ _ _ _ F1). apply Forall_app. split.
      + eapply Forall_impl; [|exact Hm1]. intros x (t & Ht & Hx). exists t. split; [apply in_or_app; left; exact Ht|exact Hx].
      + eapply Forall_impl; [|exact Hm2]. intros x (t & Ht & Hx). exists t. split; [apply in_or_app; right; exact Ht|exact Hx].
  Qed.
  Lemma follows_Done : forall A (a : A), follows (Done a).
  Proof. intros A a. apply follows_acts. exact Logic.I. Qed.

  (** One answer is prepared: the queue is emptied before *)
  Lemma follows_push : forall d w l s s' a sn sv s1' es',
    Forall (Forall handler) w -> no_logon sv l -> Rl l s' -> alike p s s' -> cv_waiting s = [] -> faded s s' ->
    preempted E (wr (fun r => set_pom_deque (pom_deque (r_bidi r) ++ [d]) r)) w s' = Ok ((a, sn, sv), s1', es') ->
    Rl (listen_all sv l) s1' /\
    exists s1 es, flat (wr (fun r => set_pom_deque (pom_deque (r_bidi r) ++ [d]) r)) s = Ok (a, s1, es) /\ alike p s1 s1' /\ faded s1 s1' /\
      commands es' = es /\
    Forall (fun m => exists t, In t (stages (wr (fun r => set_pom_deque (pom_deque (r_bidi r) ++ [d]) r)) s) /\ like t m)
      (meanwhile E (wr (fun r => set_pom_deque (pom_deque (r_bidi r) ++ [d]) r)) w s').
  Proof.
    intros d w l s s' a sn sv s1' es' Hw Hn HR Ha H0 Hf H. unfold wr, act in *. apply preempted_inv in H.
    destruct H as (s2 & e1 & b & s3 & e2 & a0 & sn1 & sv1 & e3 & H1 & H2 & H3 & Ho & ->).
    injection Ho as -> -> ->. inversion H3; subst a0 s3 sn1 sv1 e3. clear H3. rewrite app_nil_r in Hn |- *.
    pose proof (handlers_hd w Hw) as Hh.
    destruct (handlers_alike E deaf p _ _ _ _ _ _ Hh Hn HR Ha H1) as [Ha2 He1].
    pose proof (handlers_like _ _ _ _ _ _ Hh Hn HR (alike_near _ _ Ha) Hf H1) as HL.
    assert (Hf2 : faded s s2) by (apply faded_trans with s'; [exact Hf|exact (pom_handlers _ _ _ _ Hh H1)]).
    pose proof (run_refines E _ _ _ _ _ HR H1) as HR2.
    assert (B : blind p unit (modify (fun r => set_pom_deque (pom_deque (r_bidi r) ++ [d]) r)) (I := I))
      by (apply blind_modify; [masked|intros; reflexivity|cbn; auto]).
    destruct B as [Hk Hm]. pose proof (Rl_core _ _ _ (Hk _ _ _ _ H2) HR2) as HR3.
    specialize (Hm _ _ Ha2). rewrite H2 in Hm. 
    destruct (modify (fun r => set_pom_deque (pom_deque (r_bidi r) ++ [d]) r) s) as [[[b' s4] e4]|u] eqn:Em; [|contradiction].
    destruct Hm as (-> & -> & Ha3 & Hfe). split; [exact HR3|].
    exists s4, (e2 ++ []). split; [cbn [flat]; unfold bind; rewrite Em; reflexivity|]. split; [exact Ha3|]. split.
    - destruct Hf2 as [n Hn2]. rewrite H0, skipn_nil in Hn2. exists 0%nat. cbn [skipn]. inversion H2; subst. inversion Em; subst.
      unfold cv_waiting in *. cbn. rewrite Hn2, H0. reflexivity.
    - split; [rewrite !commands_app, He1, (commands_all e2) by exact Hfe; cbn; rewrite ?app_nil_r; reflexivity|].
      cbn [meanwhile stages]. rewrite H1, H2, Em. rewrite app_nil_r. eapply Forall_impl; [|exact HL].
      intros x Hx. exists s. split; [left; reflexivity|exact Hx].
  Qed.
End Stale.
