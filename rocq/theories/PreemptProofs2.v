(** The queue during interrupted executions. *)
From Verif Require Import Prelude Address RxState Rx RxLogic SpecRx RxBitProofs RxBitProofs4 ExecProofs Preempt SpecPreempt.

Section Steps.
  Context {I : Type} (E : Env I).
  Implicit Types s : st I.

  (** All steps of a program satisfy [Q] *)
  Fixpoint acts (Q : forall B, M (I := I) B -> Prop) {A} (P : prog (I := I) A) : Prop :=
    match P with
    | Done _ => True
    | Act B m k => Q B m /\ forall b, acts Q (k b)
    end.

  Lemma acts_pbind : forall Q A C (P : prog A) (k : A -> prog C),
    acts Q P -> (forall a, acts Q (k a)) -> acts Q (pbind P k).
  Proof.
    intros Q A C P k. induction P as [a|B m h IH]; intros HP Hk; cbn [pbind acts] in *; [apply Hk|].
    destruct HP as [Hm Hh]. split; [exact Hm|]. intro b. apply IH; auto.
  Qed.
  Lemma acts_act : forall (Q : forall B, M (I := I) B -> Prop) B (m : M B), Q B m -> acts Q (act m).
  Proof. intros Q B m H. split; [exact H|]. intro. exact Logic.I. Qed.
  Lemma acts_when : forall Q b (P : prog unit), acts Q P -> acts Q (whenP b P).
  Proof. intros Q [] P H; [exact H|exact Logic.I]. Qed.
  Lemma acts_local : forall (Q : forall B, M (I := I) B -> Prop) A (m : res A),
    (forall u, Q A (fail u)) -> acts Q (local m).
  Proof. intros Q A [a|u] H; [exact Logic.I|]. apply acts_act, H. Qed.
End Steps.

(** Structural decomposition; leaves the goals about single steps *)
Ltac acts1 :=
  lazymatch goal with
  | |- acts _ (pbind _ _) => apply acts_pbind; [|intro]
  | |- acts _ (Done _) => exact Logic.I
  | |- acts _ (act _) => apply acts_act
  | |- acts _ (local _) => apply acts_local; intro
  | |- acts _ (whenP _ _) => apply acts_when
  | |- acts _ (if ?b then _ else _) => destruct b
  | |- acts _ (match ?x with _ => _ end) => destruct x
  | |- acts _ (let _ := _ in _) => cbv zeta
  | |- acts _ ?P => let h := head_of P in unfold h
  end.
Ltac acts_tac := repeat acts1.

Section Queue.
  Context {I : Type} (E : Env I).
  Implicit Types s : st I.

  Notation Q := (fun B (m : M (I := I) B) => keeps core m).
  Ltac kc :=
    lazymatch goal with
    | |- keeps _ (gets _) => intros ? ? ? ? H; inversion H; reflexivity
    | |- keeps _ (ask _ _ _) => intros ? ? ? ? H; unfold ask in H;
        destruct (e_async _ _ _) as [[?|] ?]; inversion H; reflexivity
    | |- keeps _ front => intros s0 ? ? ? H; unfold front in H;
        destruct (r_deque (rxs s0)); inversion H; reflexivity
    | |- keeps _ (front_at _ _) => intros s0 ? ? ? H; unfold front_at in H;
        destruct (r_deque (rxs s0)); [discriminate|];
        destruct (nth_error _ _); inversion H; reflexivity
    | |- keeps _ (front_size _) => intros s0 ? ? ? H; unfold front_size in H;
        destruct (r_deque (rxs s0)); inversion H; reflexivity
    | |- keeps _ front_address => intros s0 ? ? ? H; unfold front_address in H;
        destruct (r_deque (rxs s0)); [discriminate|];
        destruct (decode_address _); inversion H; reflexivity
    | |- keeps _ (front_instruction _) => intros s0 ? ? ? H; unfold front_instruction in H;
        destruct (r_deque (rxs s0)); [discriminate|];
        destruct (Instruction.decode_instruction _); inversion H; reflexivity
    | |- _ => keeps_tac
    end.
  Lemma kc_init : acts Q (initP E). Proof. acts_tac; kc. Qed.
  Lemma kc_run_cb : forall c v, acts Q (run_cbP E c v). Proof. intros. acts_tac; kc. Qed.
  Lemma kc_cb_byte : forall b v, acts Q (cb_byteP E b v).
  Proof. intros b v. unfold cb_byteP. acts_tac; kc. Qed.
  Lemma kc_cb_bit : forall b v, acts Q (cb_bitP E b v).
  Proof. intros b v. unfold cb_bitP. acts_tac; kc. Qed.
  Ltac acts2 :=
    lazymatch goal with
    | |- acts _ (initP _) => apply kc_init
    | |- acts _ (run_cbP _ _ _) => apply kc_run_cb
    | |- acts _ (cb_byteP _ _ _) => apply kc_cb_byte
    | |- acts _ (cb_bitP _ _ _) => apply kc_cb_bit
    | _ => acts1
    end.
  Lemma kc_cvWrite : forall a b, acts Q (cvWriteP E a b). Proof. intros. repeat acts2; kc. Qed.
  Lemma kc_cvWriteBit : forall a b o, acts Q (cvWriteBitP E a b o). Proof. intros. repeat acts2; kc. Qed.
  Lemma kc_cvVerify : forall a b, acts Q (cvVerifyP E a b). Proof. intros. repeat acts2; kc. Qed.
  Lemma kc_cvVerifyBit : forall a b o, acts Q (cvVerifyBitP E a b o). Proof. intros. repeat acts2; kc. Qed.
  Ltac acts3 :=
    lazymatch goal with
    | |- acts _ (cvWriteP _ _ _) => apply kc_cvWrite
    | |- acts _ (cvWriteBitP _ _ _ _) => apply kc_cvWriteBit
    | |- acts _ (cvVerifyP _ _ _) => apply kc_cvVerify
    | |- acts _ (cvVerifyBitP _ _ _ _) => apply kc_cvVerifyBit
    | _ => acts1
    end.
  Lemma kc_cvLong : forall a o, acts Q (cvLongP E a o). Proof. intros. repeat acts3; kc. Qed.
  Lemma kc_instruct : forall a o, acts Q (instructP E a o).
  Proof.
    intros. repeat lazymatch goal with
      | |- acts _ (cvLongP _ _ _) => apply kc_cvLong | _ => acts3 end; kc.
  Qed.
  Lemma core_handle : acts Q (handleP E).
  Proof.
    repeat lazymatch goal with
      | |- acts _ (cvLongP _ _ _) => apply kc_cvLong
      | |- acts _ (instructP _ _ _) => apply kc_instruct | _ => acts3 end; kc.
  Qed.

  Lemma listen_all_app : forall a b l, listen_all (a ++ b) l = listen_all b (listen_all a l).
  Proof. intros. apply fold_left_app. Qed.
  Lemma heard_app : forall a b l, heard (a ++ b) l = heard a l ++ heard b (listen_all a l).
  Proof.
    induction a as [|o a IH]; intros b l; [reflexivity|].
    cbn [List.app heard]. rewrite IH, app_assoc. reflexivity.
  Qed.
  Lemma taken_none : forall os l, Forall (fun o => o <> OExecute) os -> taken os l = [].
  Proof.
    induction os as [|o os IH]; intros l H; [reflexivity|]. inversion H; subst. cbn [taken].
    rewrite IH by assumption. destruct o; congruence || reflexivity.
  Qed.
  Lemma queue_grows : forall os l, Forall (fun o => o <> OExecute) os ->
    l_queue (listen_all os l) = l_queue l ++ heard os l.
  Proof. intros os l H. rewrite log_queue, taken_none by exact H. reflexivity. Qed.

  Lemma interrupting_hd : forall w, interrupting w -> Forall (fun o => o <> OExecute) (hd [] w).
  Proof. intros [|os w] H; [constructor|]. inversion H; assumption. Qed.
  Lemma interrupting_tl : forall w, interrupting w -> interrupting (tl w).
  Proof. intros [|os w] H; [constructor|]. inversion H; assumption. Qed.

  (** One step of an interrupted program *)
  Lemma preempted_inv : forall A B m (k : B -> prog A) w s o s' es,
    preempted E (Act B m k) w s = Ok (o, s', es) ->
    exists s1 e1 b s2 e2 a sn sv e3,
      run E (hd [] w) s = Ok (tt, s1, e1) /\ m s1 = Ok (b, s2, e2) /\
      preempted E (k b) (tl w) s2 = Ok ((a, sn, sv), s', e3) /\
      o = (a, r_deque (rxs s1) :: sn, hd [] w ++ sv) /\ es = e1 ++ e2 ++ e3.
  Proof.
    intros A B m k w s o s' es H. cbn [preempted] in H.
    apply bind_inv in H. destruct H as ([] & s1 & e1 & f1 & H1 & H & ->).
    rewrite bind_get in H.
    apply bind_inv in H. destruct H as (b & s2 & e2 & f2 & H2 & H & ->).
    apply bind_inv in H. destruct H as ([[a sn] sv] & s3 & e3 & f3 & H3 & H & ->).
    inversion H; subst. exists s1, e1, b, s2, e2, a, sn, sv, e3.
    repeat (split; [eassumption || reflexivity|]). rewrite app_nil_r. reflexivity.
  Qed.

  (** A program in two parts *)
  Lemma preempted_pbind : forall A C (P : prog A) (k : A -> prog C) w s o s' es,
    preempted E (pbind P k) w s = Ok (o, s', es) ->
    exists a sn1 sv1 s1 e1 c sn2 sv2 e2,
      preempted E P w s = Ok ((a, sn1, sv1), s1, e1) /\
      preempted E (k a) (skipn (length sn1) w) s1 = Ok ((c, sn2, sv2), s', e2) /\
      o = (c, sn1 ++ sn2, sv1 ++ sv2) /\ es = e1 ++ e2.
  Proof.
    intros A C P k. induction P as [a|B m h IH]; intros w s o s' es H.
    - destruct o as [[c sn] sv]. exists a, [], [], s, [], c, sn, sv, es.
      repeat split; auto.
    - cbn [pbind] in H. apply preempted_inv in H.
      destruct H as (s1 & e1 & b & s2 & e2 & a & sn & sv & e3 & H1 & H2 & H3 & -> & ->).
      apply IH in H3. destruct H3 as (a0 & sn1 & sv1 & s3 & e4 & c & sn2 & sv2 & e5 & H3 & H4 & Ho & ->).
      injection Ho as -> -> ->.
      exists a0, (r_deque (rxs s1) :: sn1), (hd [] w ++ sv1), s3, (e1 ++ e2 ++ e4), c, sn2, sv2, e5.
      split; [|split; [|split]].
      + cbn [preempted]. unfold bind at 1. rewrite H1. rewrite bind_get. unfold bind at 1. rewrite H2.
        unfold bind. rewrite H3. cbn [ret]. rewrite app_nil_r. reflexivity.
      + cbn [length]. destruct w; [|exact H4]. cbn [tl] in H4. rewrite skipn_nil in H4. exact H4.
      + rewrite <- app_assoc. reflexivity.
      + rewrite <- !app_assoc. reflexivity.
  Qed.

  Lemma skipn_interrupting : forall n w, interrupting w -> interrupting (skipn n w).
  Proof.
    induction n as [|n IH]; intros w H; [exact H|]. destruct w; [exact H|]. inversion H; subst.
    cbn [skipn]. apply IH. assumption.
  Qed.

  (** Steps that leave the receiver alone *)
  Lemma preempted_core : forall A (P : prog A), acts (fun B m => keeps core m) P ->
    forall w l s a sn sv s' es p,
    interrupting w -> Rl l s -> hd_error (l_queue l) = Some p ->
    preempted E P w s = Ok ((a, sn, sv), s', es) ->
    Rl (listen_all sv l) s' /\ Forall (fun d => hd_error d = Some p) sn /\
    Forall (fun o => o <> OExecute) sv.
  Proof.
    induction P as [a|B m k IH]; intros HP w l s a' sn sv s' es p Hw HR Hp H.
    - inversion H; subst. split; [exact HR|]. split; constructor.
    - destruct HP as [Hm Hk]. apply preempted_inv in H.
      destruct H as (s1 & e1 & b & s2 & e2 & a0 & sn1 & sv1 & e3 & H1 & H2 & H3 & Ho & ->).
      injection Ho as -> -> ->.
      pose proof (run_refines E _ _ _ _ _ HR H1) as HR1.
      pose proof (Rl_core _ _ _ (Hm _ _ _ _ H2) HR1) as HR2.
      pose proof (interrupting_hd w Hw) as Hh.
      assert (Hp1 : hd_error (l_queue (listen_all (hd [] w) l)) = Some p).
      { rewrite queue_grows by exact Hh. destruct (l_queue l); [discriminate|exact Hp]. }
      destruct (IH b (Hk b) _ _ _ _ _ _ _ _ _ (interrupting_tl w Hw) HR2 Hp1 H3) as (Ha & Hb & Hc).
      split; [rewrite listen_all_app; exact Ha|]. split.
      + constructor; [|exact Hb]. destruct HR1 as (_ & -> & _). exact Hp1.
      + apply Forall_app. split; assumption.
  Qed.

  (** An interrupted execution *)
  Theorem torn_execute : forall w l s o s' es,
    interrupting w -> Rl l s -> preempted E (executeP E) w s = Ok (o, s', es) ->
    one_packet o /\ Forall (fun o => o <> OExecute) (served o) /\
    Rl (without_first o (listen_all (served o) l)) s' /\
    match worked_on o with
    | Some p => hd_error (l_queue l ++ heard (served o) l) = Some p
    | None => told o = false /\ (length (seen o) <= 2)%nat
    end.
  Proof.
    intros w l s o s' es Hw HR H. unfold executeP in H. unfold rd at 1, act at 1 in H. cbn [pbind] in H.
    apply preempted_inv in H.
    destruct H as (s1 & e1 & pe & s2 & e2 & a & sn & sv & e3 & H1 & H2 & H3 & -> & ->).
    inversion H2; subst pe s2 e2; clear H2.
    pose proof (interrupting_hd w Hw) as Hh. pose proof (interrupting_tl w Hw) as Ht.
    pose proof (run_refines E _ _ _ _ _ HR H1) as HR1.
    destruct (f_packet_end (r_fsm (rxs s1))) eqn:Epe.
    { inversion H3; subst. unfold one_packet, worked_on, seen, served, told, without_first, worked_on, seen. cbn [fst snd skipn].
      rewrite app_nil_r. split; [intros d []|]. split; [exact Hh|]. split; [exact HR1|].
      split; [reflexivity|cbn [length]; lia]. }
    unfold rd at 1, act at 1 in H3. cbn [pbind] in H3. apply preempted_inv in H3.
    destruct H3 as (s3 & e4 & em & s4 & e5 & a1 & sn1 & sv1 & e6 & H4 & H5 & H6 & Ho & ->).
    injection Ho as -> -> ->. inversion H5; subst em s4 e5; clear H5.
    pose proof (interrupting_hd _ Ht) as Hh2. pose proof (interrupting_tl _ Ht) as Ht2.
    pose proof (run_refines E _ _ _ _ _ HR1 H4) as HR3.
    assert (Hq3 : r_deque (rxs s3) = l_queue (listen_all (hd [] (tl w)) (listen_all (hd [] w) l))).
    { destruct HR3 as (_ & Hq & _). exact Hq. }
    destruct (length (r_deque (rxs s3)) =? 0)%nat eqn:Ee.
    { inversion H6; subst. unfold one_packet, worked_on, seen, served, told, without_first, worked_on, seen. cbn [fst snd skipn].
      rewrite app_nil_r, listen_all_app. split; [intros d []|].
      split; [apply Forall_app; split; assumption|]. split; [exact HR3|]. split; [reflexivity|cbn [length]; lia]. }
    destruct (r_deque (rxs s3)) as [|p q] eqn:Ed; [discriminate|].
    apply preempted_pbind in H6.
    destruct H6 as (b & sn2 & sv2 & s5 & e7 & c & sn3 & sv3 & e8 & H7 & H8 & Ho & ->).
    injection Ho as -> -> ->.
    assert (Hp : hd_error (l_queue (listen_all (hd [] (tl w)) (listen_all (hd [] w) l))) = Some p)
      by (rewrite <- Hq3; reflexivity).
    destruct (preempted_core _ _ core_handle _ _ _ _ _ _ _ _ _ Ht2 HR3 Hp H7) as (HR5 & Hs2 & Hv2).
    unfold act in H8. cbn [pbind] in H8. apply preempted_inv in H8.
    pose proof (skipn_interrupting (length sn2) _ Ht2) as Ht3.
    destruct H8 as (s6 & e9 & u & s7 & e10 & a2 & sn4 & sv4 & e11 & H9 & H10 & H11 & Ho & ->).
    injection Ho as -> -> ->. inversion H11; subst; clear H11.
    pose proof (interrupting_hd _ Ht3) as Hh3.
    pose proof (run_refines E _ _ _ _ _ HR5 H9) as HR6.
    set (w3 := hd [] (skipn (length sn2) (tl (tl w)))) in *.
    set (sv := hd [] w ++ hd [] (tl w) ++ sv2 ++ w3 ++ []).
    assert (Hsv : Forall (fun o => o <> OExecute) sv).
    { unfold sv. rewrite app_nil_r. repeat (apply Forall_app; split; [assumption|]). assumption. }
    assert (Hl6 : Rl (listen_all sv l) s6).
    { unfold sv. rewrite app_nil_r, !listen_all_app. exact HR6. }
    assert (Hp6 : hd_error (r_deque (rxs s6)) = Some p).
    { destruct HR6 as (_ & -> & _). rewrite queue_grows by assumption.
      rewrite queue_grows by assumption. rewrite queue_grows in Hp |- * by assumption.
      destruct (l_queue _ ++ heard (hd [] (tl w)) _) as [|p' q']; [discriminate|]. exact Hp. }
    assert (Hseen : forall d, In d (sn2 ++ [r_deque (rxs s6)]) -> hd_error d = Some p).
    { intros d Hd. apply in_app_or in Hd. destruct Hd as [Hd|[<-|[]]].
      - rewrite Forall_forall in Hs2. apply Hs2, Hd.
      - exact Hp6. }
    assert (Hw_on : forall x y, worked_on (x, r_deque (rxs s1) :: (p :: q) :: sn2 ++ [r_deque (rxs s6)], y) = Some p).
    { intros x y. unfold worked_on, seen. cbn [fst snd skipn].
      destruct (sn2 ++ [r_deque (rxs s6)]) as [|d ds] eqn:Eds; [destruct sn2; discriminate|].
      apply Hseen. left. reflexivity. }
    unfold popFront in H10. rewrite bind_get in H10.
    destruct (r_deque (rxs s6)) as [|p6 q6] eqn:E6; [discriminate|].
    injection Hp6 as ->. inversion H10; subst; clear H10.
    unfold without_first, one_packet. rewrite !Hw_on. unfold served, seen. cbn [fst snd].
    split; [|split; [exact Hsv|split]].
    - intros d Hd. exists p. split; [reflexivity|]. cbn [skipn] in Hd. apply Hseen, Hd.
    - destruct Hl6 as (Ha & Hb & Hc & Hd & He). fold sv. unfold Rl. cbn [rxs set_r_deque r_fsm r_deque r_cv l_heard l_queue l_fresh l_on].
      rewrite <- Hb, E6. rewrite <- Hb in He. rewrite E6 in He. cbn [length tl] in *.
      repeat split; auto. lia.
    - fold sv. rewrite <- (queue_grows sv l Hsv). destruct Hl6 as (_ & <- & _). rewrite E6. reflexivity.
  Qed.

  (** A whole session *)
  Theorem session_queue : forall ts l s outs s' es,
    Forall (fun t => interrupting (snd t)) ts -> Rl l s -> session E ts s = Ok (outs, s', es) ->
    Forall one_packet outs /\
    l_queue l ++ all_heard ts outs l = all_executed ts outs l ++ r_deque (rxs s').
  Proof.
    induction ts as [|[os w] ts IH]; intros l s outs s' es Hi HR H.
    - inversion H; subst. split; [constructor|]. cbn. destruct HR as (_ & -> & _). apply app_nil_r.
    - inversion Hi as [|? ? Hw Hts]; subst. cbn [snd] in Hw. cbn [session] in H.
      apply bind_inv in H. destruct H as ([] & s1 & e1 & f1 & H1 & H & ->).
      apply bind_inv in H. destruct H as (o & s2 & e2 & f2 & H2 & H & ->).
      apply bind_inv in H. destruct H as (x & s3 & e3 & f3 & H3 & H & ->).
      inversion H; subst; clear H.
      pose proof (run_refines E _ _ _ _ _ HR H1) as HR1.
      destruct (torn_execute _ _ _ _ _ _ Hw HR1 H2) as (Ho & Hsv & HR2 & Hp).
      destruct (IH _ _ _ _ _ Hts HR2 H3) as (Hall & Hq).
      split; [constructor; assumption|]. cbn [all_heard all_executed]. fold (turn os o l) in Hq.
      rewrite (app_assoc (l_queue l)), log_queue, <- !app_assoc. f_equal.
      rewrite app_assoc, <- queue_grows by exact Hsv.
      unfold turn in Hq at 1. unfold without_first in Hq.
      destruct (worked_on o) as [p|].
      + cbn [l_queue] in Hq. rewrite <- queue_grows in Hp by exact Hsv.
        destruct (l_queue (listen_all (served o) (listen_all os l))) as [|p' q']; [discriminate|].
        injection Hp as ->. cbn [tl List.app] in *. f_equal. exact Hq.
      + exact Hq.
  Qed.

  Theorem session_fifo : forall ts i outs s' es,
    Forall (fun t => interrupting (snd t)) ts -> session E ts (st0 i) = Ok (outs, s', es) ->
    Forall one_packet outs /\
    all_heard ts outs listener0 = all_executed ts outs listener0 ++ r_deque (rxs s').
  Proof. intros ts i outs s' es Hi H. exact (session_queue _ _ _ _ _ _ Hi (Rl0 i) H). Qed.
End Queue.
