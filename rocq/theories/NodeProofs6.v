(** The decoder model simulates the interpreter of SpecNode.v: all calls *)
From Verif Require Import Prelude Address Instruction Packets Backoff Datagram ZBits SpecCodec RxState Rx CodecProofs CodecProofs2 RxLogic SpecRx RxBitProofs
  SpecExec ExecProofs SpecConf ConfProofs ConfProofs2 SpecCv CvProofs CvProofs2 CvProofs4 CvProofs5 CvProofs6 CvProofs7 RxInv SaneProofs
  SpecLogon LogonProofs LogonProofs2 LogonProofs3 SpecLayout LayoutProofs LayoutProofs2 LayoutProofs3 LayoutProofs4
  SpecNode NodeProofs NodeProofs2 NodeProofs4 NodeProofs5.

Section Step.
  Context {I : Type} (E : Env I) (m : I -> Z -> Z) (able : access -> Prop) (Hk : keeps_cvs able E m).
  Implicit Types s : st I.
  Let Hm : cv_memory E m := proj1 Hk.
  Notation Sim := (Sim m).
  Notation simulates := (simulates m able).

  Definition heard (o : op) (l : listener) : list input :=
    match completed o l with
    | Some bs => if is_logon bs then [Heard bs] else []
    | None => []
    end.

  Lemma sim_receive : forall i os es0 n s t s' es, run E os (st0 i) = Ok (tt, s, es0) -> Sim n s ->
    receive E t s = Ok (tt, s', es) ->
    Sim (fst (attend_all (e_east_west E) (heard (OReceive t) (listen_all os listener0)) n)) s' /\
    seen_in es = snd (attend_all (e_east_west E) (heard (OReceive t) (listen_all os listener0)) n).
  Proof.
    intros i os es0 n s t s' es Hrun HS H. pose proof (run_refines E _ _ _ _ _ (Rl0 i) Hrun) as HR.
    set (l := listen_all os listener0) in *. unfold heard. destruct (completed (OReceive t) l) as [p|] eqn:Ec.
    - destruct (is_logon p) eqn:Eg.
      + assert (hears E s t p) as Hh by (exists i, os, es0; auto).
        destruct (logon_receive E s t p Hh Eg) as (Hs & Hb & Hl & f & Hf & Hr). rewrite Hr in H. clear Hr.
        destruct (is_logon_254 _ Eg) as (r & Hp & Ha). rewrite Ha in H.
        cbn [attend_all attend fst snd List.app]. rewrite hear_split.
        assert (Sim n (entered f p s)) as HSe by (apply (Sim_kept m n s); [reflexivity|reflexivity|exact HS]).
        destruct (undamaged_b p).
        * destruct (executeAutomaticLogon E (Addr 254 ATLogon false) (tl p) (entered f p s)) as [[[b s2] e2]|u] eqn:Ex; [|discriminate H].
          cbn [closing] in H.
          assert (Forall byte (tl p)) as Hb1 by (rewrite Hp in *; inversion Hb; assumption).
          destruct (sim_handler E m able Hk n _ (tl p) b s2 e2 (entered_sane f p s Hf Hb Hs) Hb1 HSe Ex) as [K1 K2].
          assert (254 :: tl p = p) as Ept by (rewrite Hp; reflexivity). rewrite Ept in K1.
          assert (es = e2) as -> by congruence. match type of H with Ok (_, ?x, _) = _ => assert (s' = x) as -> by congruence end.
          split; [|exact K2]. apply (Sim_kept m _ s2); [reflexivity|reflexivity|exact K1].
        * cbn [closing] in H. assert (es = []) as -> by congruence. match type of H with Ok (_, ?x, _) = _ => assert (s' = x) as -> by congruence end.
          split; [|reflexivity]. apply (Sim_kept m _ (entered f p s)); [reflexivity|reflexivity|exact HSe].
      + destruct (receive_ordinary E l s t p HR Ec Eg) as (_ & _ & f & _ & Hr). rewrite Hr in H.
        assert (es = []) as -> by congruence. match type of H with Ok (_, ?x, _) = _ => assert (s' = x) as -> by congruence end.
        cbn [attend_all fst snd]. split; [|reflexivity]. apply (Sim_kept m _ s); [reflexivity|reflexivity|exact HS].
    - destruct (receive_nothing E l s t HR Ec) as [Hr|(f & c & ad & Hr & _ & _ & _ & Had)]; [congruence|]. rewrite Hr in H.
      assert (es = []) as -> by congruence. match type of H with Ok (_, ?x, _) = _ => assert (s' = x) as -> by congruence end.
      cbn [attend_all fst snd]. split; [|reflexivity]. apply (Sim_kept m _ s); [|reflexivity|exact HS].
      unfold nregs. cbn [rxs r_fsm r_deque r_cnt r_addrs r_conf r_logon r_bidi r_cv r_time]. destruct Had as [-> | ->]; reflexivity.
  Qed.

  (** All that holds between the calls *)
  Definition good (l : listener) (n : node) s : Prop :=
    (exists i os es, run E os (st0 i) = Ok (tt, s, es) /\ l = listen_all os listener0) /\ Sim n s /\ byte (page s) /\ pending s = [].

  Lemma nregs_dyn_all : forall ds, keeps nregs (@dyn_all I ds).
  Proof. induction ds as [|d ds IH]; [keeps_tac|]. apply keeps_bind; [keeps_tac|intros _; exact IH]. Qed.
  Lemma nregs_datagram : forall ds, keeps nregs (@datagram I ds).
  Proof.
    intros ds. unfold datagram. apply keeps_bind; [apply keeps_get|intros r]. apply keeps_bind; [keeps_tac|intros _].
    apply keeps_bind; [apply keeps_get|intros r']. destruct (block_dyn (r_bidi r')); [apply keeps_ret|apply nregs_dyn_all].
  Qed.

  Definition input_of (o : op) (l : listener) : list input :=
    match o with
    | OInit => [Configured]
    | OExecute => map Taken (if l_fresh l then [] else firstn 1 (l_queue l))
    | _ => heard o l
    end.
  Lemma inputs_cons : forall o os l, inputs (o :: os) l = input_of o l ++ inputs os (listen o l).
  Proof. intros [] os l; reflexivity. Qed.

  Lemma good_step : forall o l n s b s' es, good l n s -> step E o s = Ok (b, s', es) ->
    let x := attend_all (e_east_west E) (input_of o l) n in
    Forall (allowed able) (snd x) -> good (listen o l) (fst x) s' /\ seen_in es = snd x.
  Proof.
    intros o l n s b s' es ((i & os & es0 & Hrun & ->) & HS & Hpg & Hpe) H.
    assert (reached E s) as Hre by (exists i, os, es0; exact Hrun).
    pose proof (run_refines E _ _ _ _ _ (Rl0 i) Hrun) as HR.
    pose proof (page_step E s o b s' es Hre Hpg H) as Hpg'. pose proof (still_step E m able Hk o s b s' es Hpe H) as Hpe'.
    assert (Hg : exists i os0 es0, run E os0 (st0 i) = Ok (tt, s', es0) /\ listen o (listen_all os listener0) = listen_all os0 listener0).
    { exists i, (os ++ [o]), (es0 ++ es). split; [|unfold listen_all; rewrite fold_left_app; reflexivity].
      apply (run_app_ok E) with s; [exact Hrun|]. cbn [run]. unfold bind. rewrite H. unfold ret. rewrite app_nil_r. reflexivity. }
    assert (KG : forall v' cs, Sim v' s' /\ seen_in es = cs -> good (listen o (listen_all os listener0)) v' s' /\ seen_in es = cs).
    { intros v' cs [A B]. split; [|exact B]. split; [exact Hg|]. split; [exact A|]. split; [exact Hpg'|exact Hpe']. }
    assert (K : forall A (f : M (I := I) A), simulates f idle -> bind f (fun _ => ret false) s = Ok (b, s', es) -> Sim n s' /\ seen_in es = []).
    { intros A f Hf Hx. exact (sim_then_idle m able _ _ f (fun _ => ret false) idle Hf (fun _ => sim_ret m able _ _) _ _ _ _ _ HS Hx (Forall_nil _)). }
    set (l := listen_all os listener0) in *.
    destruct o; cbn [step] in H; cbv zeta; cbn [input_of]; intros Hra; apply KG;
      try (unfold heard; cbn [completed attend_all attend fst snd List.app] in *; cbn [completed attend_all attend fst snd List.app]).
    - apply bind_inv in H. destruct H as (u & s1 & e1 & e2 & H1 & H2 & ->). unfold ret in H2.
      assert (s' = s1) as -> by congruence. assert (e2 = []) as -> by congruence. rewrite app_nil_r.
      exact (sim_init E m able Hk _ _ _ _ _ HS H1 (Forall_nil _)).
    - apply (K _ enable); [|exact H]. apply sim_idle; [keeps_tac|quiet_tac Hm|emits_tac].
    - apply (K _ disable); [|exact H]. apply sim_idle; [keeps_tac|quiet_tac Hm|emits_tac].
    - apply bind_inv in H. destruct H as ([] & s1 & e1 & e2 & H1 & H2 & ->). unfold ret in H2.
      assert (s' = s1) as -> by congruence. assert (e2 = []) as -> by congruence. rewrite app_nil_r.
      exact (sim_receive i os es0 n s time s1 e1 Hrun HS H1).
    - assert (byte (v_page (n_view n))) as Hvp.
      { destruct HS as (_ & HS). unfold nregs, registers in HS. unfold page in Hpg.
        assert (index_reg (r_cv (rxs s)) = v_page (n_view n)) as <- by congruence. exact Hpg. }
      pose proof (sim_execute E m able Hk n s b s' es Hre HS Hvp H) as Hx. destruct HR as (_ & Hq & Hf & _).
      destruct Hx as [(-> & -> & Hn)|(p & q & Hr & Hx)].
      + assert ((if l_fresh l then [] else firstn 1 (l_queue l)) = []) as Ee.
        { destruct (l_fresh l) eqn:Ef; [reflexivity|]. destruct (l_queue l) as [|p q] eqn:Eq; [reflexivity|].
          elim (Hn p q). split; [exact Hf|exact Hq]. }
        rewrite Ee in *. cbn [map attend_all fst snd] in *. auto.
      + assert ((if l_fresh l then [] else firstn 1 (l_queue l)) = [p]) as Ee.
        { destruct Hr as [R1 R2]. rewrite <- Hf, R1, <- Hq, R2. reflexivity. }
        rewrite Ee in *. cbn [map attend_all attend] in *. destruct (execution (e_east_west E) p n) as [v1 a]. cbn [fst snd] in *. rewrite app_nil_r in *.
         exact (Hx Hra).
    - apply (K _ (datagram ds)); [|exact H]. apply sim_idle; [apply nregs_datagram|apply quiet_datagram|apply plain_datagram].
    - apply (K _ (biDiChannel1 E)); [|exact H]. apply sim_idle; [keeps_tac|quiet_tac Hm|emits_tac; reflexivity].
    - apply (K _ (biDiChannel2 E)); [|exact H]. apply sim_idle; [keeps_tac|quiet_tac Hm|emits_tac; reflexivity].
    - rewrite Hpe in H. destruct i0; cbn [nth_error] in H; (assert (s' = s) as -> by congruence); (assert (es = []) as -> by congruence); auto.
  Qed.

  Lemma attend_app : forall ew a b v, attend_all ew (a ++ b) v =
    (fst (attend_all ew b (fst (attend_all ew a v))), snd (attend_all ew a v) ++ snd (attend_all ew b (fst (attend_all ew a v)))).
  Proof.
    intros ew. induction a as [|p a IH]; intros b v; cbn [List.app attend_all fst snd]; [apply surjective_pairing|].
    destruct (attend ew p v) as [v1 x]. rewrite IH. destruct (attend_all ew a v1) as [v2 y]. cbn [fst snd]. rewrite app_assoc. reflexivity.
  Qed.

  Lemma good_run : forall os l n s s' es, good l n s -> run E os s = Ok (tt, s', es) ->
    let x := attend_all (e_east_west E) (inputs os l) n in
    Forall (allowed able) (snd x) -> good (listen_all os l) (fst x) s' /\ seen_in es = snd x.
  Proof.
    induction os as [|o os IH]; intros l n s s' es Hg H; cbv zeta.
    - cbn [run] in H. unfold ret in H. assert (s' = s) as -> by congruence. assert (es = []) as -> by congruence. auto.
    - cbn [run] in H. apply bind_inv in H. destruct H as (b & s1 & e1 & e2 & H1 & H2 & ->).
      rewrite inputs_cons, attend_app. cbn [fst snd]. intros Hra. apply Forall_app in Hra. destruct Hra as [Hr1 Hr2].
      destruct (good_step o l n s b s1 e1 Hg H1 Hr1) as [G1 S1].
      destruct (IH _ _ _ _ _ G1 H2 Hr2) as [G2 S2].
      split; [exact G2|]. rewrite seen_app, S1, S2. reflexivity.
  Qed.

  (** From the start *)
  Lemma node_run : forall os i s es, run E os (st0 i) = Ok (tt, s, es) ->
    let x := attend_all (e_east_west E) (inputs os listener0) (new_node (m i)) in
    Forall (allowed able) (snd x) -> seen_in es = snd x /\ Sim (fst x) s.
  Proof.
    intros os i s es H x Hra.
    assert (good listener0 (new_node (m i)) (st0 i)) as G.
    { split; [exists i, [], []; split; reflexivity|]. split; [split; [intros a|]; reflexivity|].
      split; [unfold byte, page; cbn; lia|reflexivity]. }
    destruct (good_run os _ _ _ _ _ G H Hra) as [(_ & HS & _) S2]. auto.
  Qed.

  Lemma node_runs : forall os i s es, run E os (st0 i) = Ok (tt, s, es) ->
    let x := attend_all (e_east_west E) (inputs os listener0) (new_node (m i)) in
    Forall (allowed able) (snd x) ->
    seen_in es = snd x /\ (forall a, m (app s) a = v_cvs (n_view (fst x)) a) /\
    in_service s = v_service (n_view (fst x)) /\ page s = v_page (n_view (fst x)) /\
    own_addresses s = (n_own (fst x), n_consist (fst x), n_logon (fst x)) /\
    is_selected s = n_selected (fst x) /\ is_assigned s = n_assigned (fst x) /\ to_store s = n_store (fst x).
  Proof.
    intros os i s es H x Hra. destruct (node_run os i s es H Hra) as [K1 (K2 & K3)]. fold x in K1, K2, K3.
    unfold nregs, registers in K3. unfold in_service, page, own_addresses, is_selected, is_assigned, to_store.
    split; [exact K1|]. split; [exact K2|]. repeat split; congruence.
  Qed.
End Step.
