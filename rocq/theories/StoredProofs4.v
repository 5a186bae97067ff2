(** Storing an assigned address: histories, and executions without logon packets. *)
From Verif Require Import Prelude Address Instruction Checksum Datagram RxState Rx ZBits RxLogic RxInv SpecCodec SpecRx RxBitProofs RxBitProofs4
  SpecExec ExecProofs SpecConf SpecCv SpecLogon SaneProofs LogonProofs2 Preempt PreemptData SpecPreempt PreemptProofs PreemptProofs2 PreemptProofs4 StaleProofs
  OfferProofs PreemptLoop SpecLoop LoopProofs SpecStored StoredProofs StoredProofs2 StoredProofs3.

Section History.
  Context {I : Type} (E : Env I).
  Implicit Types s : st I.

  Lemma goes_storing : goes E anything (logonStoreP E) anything.
  Proof. apply goes_acts. acts_tac; lazymatch goal with |- keeps _ (gets _) => intros s b s' es H; inversion H; reflexivity | _ => keeps_tac end. Qed.
  Lemma goes_execute : goes E anything (executeP E) anything.
  Proof.
    unfold executeP. apply (goes_bind E _ anything); [apply goes_calm, tame_act, soft_gets|intros []]; [apply goes_Done|].
    apply (goes_bind E _ anything); [apply goes_calm, tame_act, soft_gets|intros []]; [apply goes_Done|].
    apply (goes_bind E _ anything).
    - unfold handleP. apply (goes_bind E _ anything); [apply goes_calm, tame_adr|intros _].
      apply (goes_bind E _ anything); [apply goes_storing|intros _]. apply goes_calm. exact (tame_rest E).
    - intro b. apply goes_calm. apply tame_bind; [apply tame_act, soft_pop|intro; exact Logic.I].
  Qed.
  Lemma goes_task : forall t, goes E anything (taskP E t) anything.
  Proof.
    intros [| |ds|i v]; cbn [taskP]; [apply goes_execute| | |]; (apply (goes_bind E _ anything); [|intro; apply goes_Done]).
    - apply goes_calm, tame_init.
    - apply goes_acts. assert (G : forall B (f : rx -> B), keeps stuff (gets (I := I) f)) by (intros B f s b s' es H; inversion H; reflexivity).
      apply acts_datagram; [exact G|intro; apply keeps_modify; reflexivity|]. apply acts_push; [exact G|intros B r; apply keeps_fail|intro; apply keeps_modify; reflexivity].
    - apply goes_calm. unfold callbackP. apply tame_bind; [apply tame_act|intros [c|]; [apply tame_run_cb|exact Logic.I]].
      intros s b s' es Hb H. inversion H; subst. auto.
  Qed.
  Lemma preempted_flat : forall A (P : prog A) s a s' es, flat P s = Ok (a, s', es) -> exists o, preempted E P [] s = Ok (o, s', es).
  Proof.
    intros A P. induction P as [a|B m k IH]; intros s a' s' es H; cbn [flat preempted] in *.
    - inversion H; subst. eexists. reflexivity.
    - apply bind_inv in H. destruct H as (b & s1 & e1 & e2 & H1 & H2 & ->). destruct (IH _ _ _ _ _ H2) as ([[a0 sn] sv] & Hp).
      cbn [hd tl run]. unfold bind at 1, ret at 1. rewrite bind_get. unfold bind. rewrite H1, Hp. cbn. rewrite app_nil_r. eexists. reflexivity.
  Qed.
  Lemma bytes_call : forall t, holds bytes (step E (call_of t)).
  Proof.
    intros t s a s' es H Hb. rewrite <- flat_task in H. destruct (preempted_flat _ _ _ _ _ _ H) as [o Ho].
    exact (proj1 (goes_task t [] s [] o s' es (Forall_nil _) Ho Hb Logic.I)).
  Qed.
  Lemma bytes_step : forall o, holds bytes (step E o).
  Proof.
    intros [| | |t| |ds| | |i v].
    - exact (bytes_call TInit).
    - apply bytes_keeps. keeps_tac.
    - apply bytes_keeps. keeps_tac.
    - apply (bytes_handler E (OReceive t)). exact Logic.I.
    - exact (bytes_call TExecute).
    - exact (bytes_call (TDatagram ds)).
    - apply (bytes_handler E OBiDi1). exact Logic.I.
    - apply (bytes_handler E OBiDi2). exact Logic.I.
    - exact (bytes_call (TCallback i v)).
  Qed.
  Lemma bytes_run : forall os, holds bytes (run E os).
  Proof. induction os as [|o os IH]; [apply holds_ret|]. cbn [run]. apply holds_bind; [apply bytes_step|intro; exact IH]. Qed.
  Lemma bytes_loop : forall ts, Forall (fun t => Forall (Forall handler) (snd t)) ts -> holds bytes (mainloop E ts).
  Proof.
    induction ts as [|[[os t] w] ts IH]; intros Hw; [apply holds_ret|]. inversion Hw as [|? ? W1 W2]; subst. cbn [mainloop snd] in *.
    apply holds_bind; [apply bytes_run|intros _]. apply holds_bind; [|intro; apply holds_bind; [exact (IH W2)|intro; apply holds_ret]].
    intros s o s' es H Hb. exact (proj1 (goes_task t w s [] o s' es W1 H Hb Logic.I)).
  Qed.
  Lemma bytes0 : forall i : I, bytes (rxs (st0 i)).
  Proof. intro i. split; [constructor|]. split; [constructor|]. cbn. unfold byte. lia. Qed.

  (** ** No logon packets *)
  Definition idle (r : rx) : Prop := logon_store (r_logon r) = false.
  Definition still {A} (P : prog (I := I) A) : Prop := forall w l s a sn sv s' es, Forall (Forall handler) w -> no_logon sv l -> Rl l s ->
    bytes (rxs s) -> idle (rxs s) -> preempted E P w s = Ok ((a, sn, sv), s', es) -> Rl (listen_all sv l) s' /\ bytes (rxs s') /\ idle (rxs s').
  Lemma quiet_handlers : forall os l s s' es, Forall handler os -> no_logon os l -> Rl l s -> run E os s = Ok (tt, s', es) ->
    logon_store (r_logon (rxs s')) = logon_store (r_logon (rxs s)).
  Proof.
    induction os as [|o os IH]; intros l s s' es Hh Hn HR H; [inversion H; subst; reflexivity|]. inversion Hh as [|? ? Ho Hos]; subst. destruct Hn as [Hn1 Hn2].
    cbn [run] in H. apply bind_inv in H. destruct H as (b & s2 & e1 & e2 & H1 & H2 & ->). pose proof (step_refines E _ _ _ _ _ _ HR H1) as HR2.
    rewrite (IH _ _ _ _ Hos Hn2 HR2 H2). clear IH H2 Hn2. destruct o as [| | |t| |ds| | |j v]; try contradiction.
    - cbn [step] in H1. apply bind_inv in H1. destruct H1 as (u & s3 & e3 & e4 & H1 & Hr & ->). inversion Hr; subst; clear Hr.
      destruct (completed (OReceive t) l) as [p|] eqn:Ec.
      + destruct (receive_ordinary E l s t p HR Ec (Hn1 p eq_refl)) as (_ & _ & f & _ & Hx). rewrite Hx in H1. inversion H1; subst. reflexivity.
      + destruct (receive_nothing E l s t HR Ec) as [Hx|(f & c & ad & Hx & _)]; rewrite Hx in H1; inversion H1; subst. reflexivity.
    - match type of H1 with ?m _ = _ => assert (K : keeps (fun r => logon_store (r_logon r)) m) by keeps_tac end. exact (K _ _ _ _ H1).
    - match type of H1 with ?m _ = _ => assert (K : keeps (fun r => logon_store (r_logon r)) m) by keeps_tac end. exact (K _ _ _ _ H1).
  Qed.
  Lemma still_Done : forall A (a : A), still (Done a).
  Proof. intros A a w l s a' sn sv s' es _ _ HR Hb Hs H. inversion H; subst. auto. Qed.
  Lemma still_bind : forall A C (P : prog A) (k : A -> prog C), still P -> (forall a, still (k a)) -> still (pbind P k).
  Proof.
    intros A C P k HP Hk w l s a sn sv s' es Hw Hn HR Hb Hs H. apply preempted_pbind in H.
    destruct H as (a1 & sn1 & sv1 & s1 & e1 & c & sn2 & sv2 & e2 & H1 & H2 & Ho & ->). injection Ho as -> -> ->.
    apply no_logon_app in Hn. destruct Hn as [N1 N2]. destruct (HP _ _ _ _ _ _ _ _ Hw N1 HR Hb Hs H1) as (R1 & B1 & S1).
    rewrite listen_all_app. exact (Hk a1 _ _ _ _ _ _ _ _ (handlers_skipn _ _ Hw) N2 R1 B1 S1 H2).
  Qed.
  Lemma still_Act : forall B (m : M B) A (k : B -> prog A), keeps core m ->
    (forall s b s' es, bytes (rxs s) -> m s = Ok (b, s', es) -> bytes (rxs s') /\ (idle (rxs s) -> idle (rxs s'))) ->
    (forall b, (exists s s' es, bytes (rxs s) /\ m s = Ok (b, s', es)) -> still (k b)) -> still (Act B m k).
  Proof.
    intros B m A k Hc Hm Hk w l s a sn sv s' es Hw Hn HR Hb Hs H. apply preempted_inv in H.
    destruct H as (s1 & e1 & b & s2 & e2 & a1 & sn1 & sv1 & e3 & H1 & H2 & H3 & Ho & ->). injection Ho as -> -> ->.
    apply no_logon_app in Hn. destruct Hn as [N1 N2]. pose proof (handlers_hd _ Hw) as Hh.
    pose proof (run_refines E _ _ _ _ _ HR H1) as R1. destruct (handlers_run E (told_by (rxs s)) _ _ _ _ Hh H1 Hb) as (B1 & _).
    assert (S1 : idle (rxs s1)) by (unfold idle; rewrite (quiet_handlers _ _ _ _ _ Hh N1 HR H1); exact Hs).
    destruct (Hm _ _ _ _ B1 H2) as (B2 & S2). rewrite listen_all_app.
    refine (Hk b _ _ _ _ _ _ _ _ _ (handlers_tl _ Hw) N2 (Rl_core _ _ _ (Hc _ _ _ _ H2) R1) B2 (S2 S1) H3). exists s1, s2, e2. auto.
  Qed.
  Lemma still_tame : forall A (P : prog A), tame P -> acts (fun B m => keeps core m) P -> still P.
  Proof.
    intros A P. induction P as [a|B m k IH]; intros HT HA; [apply still_Done|]. destruct HT as [T1 T2]. destruct HA as [A1 A2].
    apply still_Act; [exact A1| |intros b Hb; exact (IH b (T2 b Hb) (A2 b))].
    intros s b s' es Hb H. destruct (T1 _ _ _ _ Hb H) as (B1 & B2 & _). split; [exact B1|]. unfold memo in B2. injection B2 as _ B2 _. unfold idle. rewrite B2. auto.
  Qed.
  Lemma still_acts : forall A (P : prog A), acts (fun B m => keeps core m /\ keeps stuff m /\ holds idle m) P -> still P.
  Proof.
    intros A P. induction P as [a|B m k IH]; intros HA; [apply still_Done|]. destruct HA as [(A1 & A2 & A3) A4].
    apply still_Act; [exact A1| |intros b Hb; exact (IH b (A4 b))].
    intros s b s' es Hb H. split; [exact (bytes_keeps _ _ A2 _ _ _ _ H Hb)|exact (A3 _ _ _ _ H)].
  Qed.

  (** Once the storing is through the flag is down *)
  Lemma idle_keeps : forall B (m : M (I := I) B), keeps (fun r => logon_store (r_logon r)) m -> holds idle m.
  Proof. intros B m K s b s' es H Hs. apply K in H. unfold idle in *. rewrite H. exact Hs. Qed.
  Ltac kc :=
    lazymatch goal with
    | |- keeps _ (gets _) => intros ? ? ? ? H; inversion H; reflexivity
    | |- keeps _ (ask _ _ _) => intros ? ? ? ? H; unfold ask in H;
        destruct (e_async _ _ _) as [[?|] ?]; inversion H; reflexivity
    | |- keeps _ front => intros s0 ? ? ? H; unfold front in H;
        destruct (r_deque (rxs s0)); inversion H; reflexivity
    | |- keeps _ (front_at _ _) => intros s0 ? ? ? H; unfold front_at in H;
        destruct (r_deque (rxs s0)); [discriminate|];
        destruct (nth_error _ _); inversion H; reflexivity
    | |- keeps _ (front_size _) => intros s0 ? ? ? H; unfold front_size in H;
        destruct (r_deque (rxs s0)); inversion H; reflexivity
    | |- keeps _ front_address => intros s0 ? ? ? H; unfold front_address in H;
        destruct (r_deque (rxs s0)); [discriminate|];
        destruct (decode_address _); inversion H; reflexivity
    | |- keeps _ (front_instruction _) => intros s0 ? ? ? H; unfold front_instruction in H;
        destruct (r_deque (rxs s0)); [discriminate|];
        destruct (Instruction.decode_instruction _); inversion H; reflexivity
    | |- _ => keeps_tac
    end.
  Lemma core_rest : acts (fun B (m : M (I := I) B) => keeps core m) (restP E).
  Proof.
    unfold restP. repeat lazymatch goal with
      | |- acts _ (cvWriteP _ _ _) => apply kc_cvWrite
      | |- acts _ (cvWriteBitP _ _ _ _) => apply kc_cvWriteBit
      | |- acts _ (cvVerifyP _ _ _) => apply kc_cvVerify
      | |- acts _ (cvVerifyBitP _ _ _ _) => apply kc_cvVerifyBit
      | |- acts _ (cvLongP _ _ _) => apply kc_cvLong
      | |- acts _ (instructP _ _ _) => apply kc_instruct
      | _ => acts1 end; kc.
  Qed.
  Lemma handle_quiet : forall w l s a sn sv s' es, Forall (Forall handler) w -> no_logon sv l -> Rl l s -> bytes (rxs s) ->
    preempted E (handleP E) w s = Ok ((a, sn, sv), s', es) -> Rl (listen_all sv l) s' /\ bytes (rxs s') /\ idle (rxs s').
  Proof.
    intros w l s a sn sv s' es Hw Hn HR Hb H. unfold handleP in H. pose proof (core_handle E) as HC.
    apply preempted_pbind in H. destruct H as ([] & sn1 & sv1 & s1 & e1 & c & sn2 & sv2 & e2 & H1 & H2 & Ho & ->). injection Ho as -> -> ->.
    apply no_logon_app in Hn. destruct Hn as [_ Hn]. rewrite listen_all_app.
    assert (CA : acts (fun B (m : M (I := I) B) => keeps core m) adrP) by (acts_tac; kc).
    destruct (preempted_core' E _ _ CA _ _ _ _ _ _ _ _ (handlers_interrupting _ Hw) HR H1) as [R1 _].
    destruct (goes_calm E _ _ tame_adr _ _ [] _ _ _ Hw H1 Hb Logic.I) as [B1 _].
    apply (handlers_skipn (length sn1)) in Hw. revert Hw Hn R1 B1 H2. generalize (skipn (length sn1) w) (listen_all sv1 l). clear - HC.
    intros w l Hw Hn HR Hb H. rename s1 into s.
    apply preempted_pbind in H. destruct H as ([] & sn1 & sv1 & s1 & e1 & d & sn3 & sv3 & e3 & H1 & H2 & Ho & ->). injection Ho as -> -> ->.
    apply no_logon_app in Hn. destruct Hn as [N1 N2]. rewrite listen_all_app.
    assert (S1 : Rl (listen_all sv1 l) s1 /\ bytes (rxs s1) /\ idle (rxs s1)).
    { clear H2 N2. unfold logonStoreP in H1. unfold rd at 1, act at 1 in H1. cbn [pbind] in H1. apply preempted_inv in H1.
      destruct H1 as (s2 & f1 & b & s3 & f2 & u & sn & sv & f3 & H1 & H2 & H3 & Ho & ->). injection Ho as Hu -> ->. try subst.
      apply no_logon_app in N1. destruct N1 as [N1 N2]. rewrite listen_all_app.
      pose proof (run_refines E _ _ _ _ _ HR H1) as R2. destruct (handlers_run E (told_by (rxs s)) _ _ _ _ (handlers_hd _ Hw) H1 Hb) as (B2 & _).
      inversion H2; subst; clear H2. destruct (logon_store (r_logon (rxs s3))) eqn:Es; cbn [negb] in H3.
      - unfold wr at 1, act at 1 in H3. cbn [pbind] in H3. apply preempted_inv in H3. pose proof (handlers_tl _ Hw) as Hw1.
        destruct H3 as (s4 & f4 & [] & s5 & f5 & u' & sn' & sv' & f6 & H4 & H5 & H6 & Ho & ->). injection Ho as Hu -> ->. try subst.
        apply no_logon_app in N2. destruct N2 as [N2 N3]. rewrite listen_all_app.
        pose proof (run_refines E _ _ _ _ _ R2 H4) as R4. destruct (handlers_run E (told_by (rxs s)) _ _ _ _ (handlers_hd _ Hw1) H4 B2) as (B4 & _).
        inversion H5; subst; clear H5.
        match type of H6 with preempted E ?P _ _ = _ => assert (St : still P) end.
        { apply still_acts. acts_tac; (split; [kc|]); (split; [kc|]); apply idle_keeps; kc. }
        refine (St _ _ _ _ _ _ _ _ (handlers_tl _ Hw1) N3 _ _ _ H6); [|exact B4|reflexivity].
        exact (Rl_core _ s4 _ eq_refl R4).
      - inversion H3; subst. auto. }
    destruct S1 as (R1 & B1 & I1). refine (still_tame _ _ (tame_rest E) _ _ _ _ _ _ _ _ _ (handlers_skipn _ _ Hw) N2 R1 B1 I1 H2).
    exact core_rest.
  Qed.

  Lemma stored_quiet : forall w l s o s' es, Forall (Forall handler) w -> bytes (rxs s) -> Rl l s -> no_logon (served o) l ->
    preempted E (executeP E) w s = Ok (o, s', es) -> worked_on o <> None -> to_store s' = false.
  Proof.
    intros w l s o s' es Hw Hb HR Hn H Ho. unfold executeP in H. unfold rd at 1, act at 1 in H. cbn [pbind] in H. apply preempted_inv in H.
    destruct H as (s1 & e1 & b & s2 & e2 & a & sn & sv & e3 & H1 & H2 & H3 & -> & ->). cbn [served snd] in Hn.
    apply no_logon_app in Hn. destruct Hn as [N1 Hn].
    pose proof (run_refines E _ _ _ _ _ HR H1) as R1.
    destruct (handlers_run E (told_by (rxs s)) _ _ _ _ (handlers_hd _ Hw) H1 Hb) as (B1 & _).
    inversion H2; subst; clear H2. destruct (f_packet_end (r_fsm (rxs s2))).
    { inversion H3; subst. exfalso. apply Ho. reflexivity. }
    unfold rd at 1, act at 1 in H3. cbn [pbind] in H3. apply preempted_inv in H3.
    destruct H3 as (s3 & e4 & b & s4 & e5 & a' & sn' & sv' & e6 & H4 & H5 & H6 & H7 & ->). injection H7 as -> -> ->.
    pose proof (handlers_tl _ Hw) as Hw1. apply no_logon_app in Hn. destruct Hn as [N2 Hn].
    pose proof (run_refines E _ _ _ _ _ R1 H4) as R2.
    destruct (handlers_run E (told_by (rxs s)) _ _ _ _ (handlers_hd _ Hw1) H4 B1) as (B2 & _).
    inversion H5; subst; clear H5. destruct (length (r_deque (rxs s4)) =? 0)%nat.
    { inversion H6; subst. exfalso. apply Ho. reflexivity. }
    pose proof (handlers_tl _ Hw1) as Hw2. apply preempted_pbind in H6.
    destruct H6 as (c & sn1 & sv1 & s5 & e7 & d & sn2 & sv2 & e8 & H6 & H7 & H8 & ->). injection H8 as -> -> ->.
    apply no_logon_app in Hn. destruct Hn as [N3 N4].
    destruct (handle_quiet _ _ _ _ _ _ _ _ Hw2 N3 R2 B2 H6) as (R3 & B3 & I3).
    unfold act in H7. cbn [pbind] in H7. apply preempted_inv in H7.
    destruct H7 as (s6 & e9 & [] & s7 & e10 & f & sn3 & sv3 & e11 & H8 & H9 & H10 & H11 & ->). injection H11 as -> -> ->. inversion H10; subst; clear H10.
    apply no_logon_app in N4. destruct N4 as [N4 _].
    pose proof (quiet_handlers _ _ _ _ _ (handlers_hd _ (handlers_skipn (length sn1) _ Hw2)) N4 R3 H8) as K.
    assert (K2 : keeps (fun r => logon_store (r_logon r)) (@popFront I)) by (unfold popFront; keeps_tac).
    apply K2 in H9. unfold to_store. rewrite H9, K. exact I3.
  Qed.

  (** ** After every history *)
  Lemma loop_heard_on : forall ts l s outs s' es, Forall (fun t => Forall (Forall handler) (snd t)) ts -> Rl l s ->
    mainloop E ts s = Ok (outs, s', es) -> Rl (loop_listened ts outs l) s'.
  Proof.
    induction ts as [|[[os t] w] ts IH]; intros l s outs s' es Hi HR H; [inversion H; subst; exact HR|].
    inversion Hi as [|? ? Hw Hts]; subst. cbn [snd] in Hw. cbn [mainloop] in H.
    apply bind_inv in H. destruct H as ([] & s1 & e1 & f1 & H1 & H & ->).
    apply bind_inv in H. destruct H as (o & s2 & e2 & f2 & H2 & H & ->).
    apply bind_inv in H. destruct H as (x & s3 & e3 & f3 & H3 & H & ->). inversion H; subst; clear H.
    pose proof (run_refines E _ _ _ _ _ HR H1) as HR1.
    destruct (task_queue E _ _ _ _ _ _ _ (handlers_interrupting _ Hw) HR1 H2) as (HR2 & _). exact (IH _ _ _ _ _ Hts HR2 H3).
  Qed.
  Theorem stored : forall ts i outs s0 e0 os s e1 w o s' es, Forall (fun t => Forall (Forall handler) (snd t)) ts ->
    mainloop E ts (st0 i) = Ok (outs, s0, e0) -> run E os s0 = Ok (tt, s, e1) -> is_selected s = true -> to_store s = true ->
    Forall (Forall handler) w -> preempted E (executeP E) w s = Ok (o, s', es) -> worked_on o <> None ->
    is_selected s' = true /\ (to_store s' = true \/ as_told es s') /\
    (no_logon (served o) (listen_all os (loop_listened ts outs listener0)) -> to_store s' = false).
  Proof.
    intros ts i outs s0 e0 os s e1 w o s' es Hts H0 H1 Hsel Hst Hw H Ho.
    pose proof (bytes_run os _ _ _ _ H1 (bytes_loop ts Hts _ _ _ _ H0 (bytes0 i))) as Hb.
    destruct (stored_either E w s o s' es Hw Hb Hsel Hst H Ho) as [A1 A2]. split; [exact A1|]. split; [exact A2|]. intro Hn.
    exact (stored_quiet w _ s o s' es Hw Hb (run_refines E _ _ _ _ _ (loop_heard_on _ _ _ _ _ _ Hts (Rl0 i) H0) H1) Hn H Ho).
  Qed.
End History.
