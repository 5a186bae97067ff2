(** The decoder model simulates the interpreter: all calls *)
From Verif Require Import Prelude Address Instruction Datagram ZBits SpecCodec RxState Rx CodecProofs CodecProofs2 RxLogic SpecRx RxBitProofs RxBitProofs4
  SpecExec ExecProofs SpecConf ConfProofs ConfProofs2 SpecCv CvProofs CvProofs2 CvProofs4 CvProofs5 CvProofs6 CvProofs7 SpecLayout
  LayoutProofs LayoutProofs2 LayoutProofs3.
Local Ltac Zify.zify_post_hook ::= Z.div_mod_to_equations.

Section Step.
  Context {I : Type} (E : Env I) (m : I -> Z -> Z) (able : access -> Prop) (Hk : keeps_cvs able E m).
  Implicit Types s : st I.
  Let Hm : cv_memory E m := proj1 Hk.
  Notation Sim := (Sim m).
  Notation simulates := (simulates m able).

  Lemma due_second : forall l, flat_map (due 2) l = l.
  Proof. induction l as [|x l IH]; [reflexivity|]. cbn [flat_map]. rewrite IH. destruct x; reflexivity. Qed.

  Lemma sim_service : forall v s p q u s' es, Forall byte p -> (3 <= length p)%nat -> r_deque (rxs s) = p :: q ->
    Sim v s -> v_service v = true -> byte (v_page v) -> executeService E s = Ok (u, s', es) ->
    Forall (allowed able) (snd (service p v)) -> Sim (fst (service p v)) s' /\ seen_in es = snd (service p v).
  Proof.
    intros v s p q u s' es Hb Hl Hd HS Hsv Hpg H Hr. unfold executeService in H. rewrite bind_get, Hd, bind_ret in H.
    destruct p as [|b0 p]; [cbn in Hl; lia|]. inversion Hb as [|? ? Hb0 Hbp]; subst.
    cbn [at_ nth_error] in H. rewrite bind_ret in H.
    apply bind_inv in H. destruct H as ([] & s3 & e3 & e4 & E1 & E2 & ->).
    unfold ret in E2. assert (s' = s3) as -> by congruence. assert (e4 = []) as -> by congruence. rewrite app_nil_r. clear E2.
    rewrite land_F0 in E1 by exact Hb0. unfold service in *. cbn [nth] in Hr |- *. unfold byte in Hb0.
    destruct (b0 =? 0); [exact (done_idle m _ _ _ _ _ HS E1)|].
    replace (16 * (b0 / 16) =? 112) with (b0 / 16 =? 7) in E1
      by (destruct (Z.eqb_spec (16 * (b0 / 16)) 112), (Z.eqb_spec (b0 / 16) 7); lia).
    destruct (negb (b0 / 16 =? 7)).
    { cbn [fst snd]. unfold serviceMode, call, modify, bind in E1. cbn [rxs app pending List.app] in E1.
      assert (s3 = Mk_st (set_service_mode false (rxs s)) (e_hook E (app s) (EServiceModeHook false)) (pending s)) as -> by congruence.
      assert (e3 = [EServiceModeHook false]) as -> by congruence. split; [|reflexivity].
      destruct HS as (A & B & C & D). split; [intros a; cbn [app]; rewrite (mem_hook E m Hm); apply A|].
      split; [exact B|]. split; [|exact D]. unfold regs in *. cbn [with_service v_service v_page v_last v_times rxs].
      destruct (rxs s) as [? ? ? ? ? ? ? [] ?]. cbn in *. congruence. }
    destruct (Nat.eqb_spec (length (b0 :: p)) 3) as [L3|_].
    { destruct p as [|b1 p]; [discriminate L3|]. inversion Hbp as [|? ? Hb1 _]; subst. cbn [nth] in Hr |- *.
      exact (sim_register E m able Hk b0 b1 p s v tt s3 e3 Hb0 Hb1 Hpg HS Hsv E1 Hr). }
    destruct (Nat.eqb_spec (length (b0 :: p)) 4) as [L4|_]; [|exact (done_idle m _ _ _ _ _ HS E1)].
    pose proof (sim_cvLong E m able Hk 0 b0 p (b0 :: p) q s v tt s3 e3 Hd Hb eq_refl HS E1) as K. cbv zeta in K.
    rewrite Hsv in K. cbn [andb] in K. cbv zeta in Hr |- *.
    set (v1 := count (b0 :: p) v) in *.
    destruct (Nat.eqb_spec (v_times v1) 2) as [E2|N2]; cbn [negb] in K.
    - rewrite E2, due_second in K. exact (K Hr).
    - exact (K Hr).
  Qed.

  Lemma sim_execute : forall v s b s' es, (forall p q, ready s p q -> Forall byte p /\ (3 <= length p)%nat) -> Sim v s -> byte (v_page v) -> execute E s = Ok (b, s', es) ->
    (s' = s /\ es = [] /\ forall p q, ~ ready s p q) \/
    exists p q, ready s p q /\
      (Forall (allowed able) (snd (obey (e_east_west E) p v)) ->
       Sim (fst (obey (e_east_west E) p v)) s' /\ seen_in es = snd (obey (e_east_west E) p v)).
  Proof.
    intros v s b s' es Hre HS Hpg H.
    assert (Hc : (s' = s /\ es = [] /\ forall p q, ~ ready s p q) \/ exists p q, ready s p q).
    { destruct (f_packet_end (r_fsm (rxs s))) eqn:Ef.
      - left. rewrite execute_gate in H by auto. split; [congruence|]. split; [congruence|]. intros p q [Hf _]. congruence.
      - destruct (r_deque (rxs s)) as [|p q] eqn:Ed; [left|right; exists p, q; split; assumption].
        rewrite execute_gate in H by auto. split; [congruence|]. split; [congruence|]. intros p q [_ Hd]. congruence. }
    destruct Hc as [(-> & -> & Hno)|(p & q & Hr)]; [left; auto|]. destruct (Hre p q Hr) as [Hb Hl].
    right. exists p, q. split; [exact Hr|]. intros Hra. unfold obey in *. destruct (v_service v) eqn:Hsv.
    2: exact (sim_operations E m able Hk v s p q b s' es Hb Hl Hr HS Hsv H Hra).
    destruct (execute_housekeeping E s p q Hr) as (s1 & e1 & Hh & Hhk & Hp & Hst & He).
    destruct (sim_housekeeping E m able Hk s v tt s1 e1 HS Hh (Forall_nil _)) as [HS1 _]. cbn [fst idle] in HS1.
    assert (e1 = []) as ->.
    { apply (proj2 Hst). destruct HS as (_ & _ & HS & _). unfold regs in HS. congruence. }
    assert (r_deque (rxs s1) = p :: q) as Hd by (unfold hk in Hhk; destruct Hr; congruence).
    rewrite He in H. unfold executeCommand in H. rewrite bind_get, (sim_mode m v s1 HS1), Hsv in H.
    destruct (executeService E s1) as [[[b2 s2] e2]|r] eqn:Ec; [|discriminate]. cbn [List.app] in H.
    assert (s' = pop q s2) as -> by congruence. assert (es = e2) as -> by congruence.
    destruct (sim_service v s1 p q b2 s2 e2 Hb Hl Hd HS1 Hsv Hpg Ec Hra) as [A B].
    split; [apply (Sim_pop m); exact A|exact B].
  Qed.

  (** Receiving anything but a logon packet *)
  Lemma sim_receive : forall l v s t s' es, Rl l s -> Sim v s ->
    (forall bs, completed (OReceive t) l = Some bs -> is_logon bs = false) ->
    receive E t s = Ok (tt, s', es) -> Sim v s' /\ es = [] /\ pending s' = pending s.
  Proof.
    intros l v s t s' es (HI & Hq & Hf & Ho & Hl) HS Hno H. rewrite receive_machine in H.
    assert (K1 : forall f, Sim v (with_fsm f s)) by (intros f; apply (Sim_kept m v s); [reflexivity..|exact HS]).
    cbn [completed] in Hno.
    destruct (half_bit t) as [b|] eqn:Et.
    2: { unfold machine in H. rewrite Et in H. 
         match type of H with Ok (_, ?x, _) = _ => assert (s' = x) as -> by congruence end.
         split; [apply K1|]. split; [congruence|reflexivity]. }
    pose proof (machine_sim (l_heard l) (r_fsm (rxs s)) (full s) b t HI Et) as Hs. cbv zeta in Hs.
    cbv zeta in Hno. replace (length (l_queue l) =? 31)%nat with (full s) in Hno by (unfold full; rewrite Hq; reflexivity).
    destruct (machine (full s) (r_fsm (rxs s)) t) as [f a] eqn:Em. cbn [fst snd] in Hs.
    assert (Kn : a = ANone -> Sim v s' /\ es = [] /\ pending s' = pending s).
    { intros ->. assert (s' = with_fsm f s) as -> by congruence. split; [apply K1|]. split; [congruence|reflexivity]. }
    destruct (looked_at (l_heard l ++ [b]) && full s) eqn:El; [apply Kn, Hs|].
    destruct (reading (l_heard l ++ [b])) as [| |bs] eqn:Er.
    - destruct Hs as [[-> _]|[[Ha|Ha] _]]; [discriminate|exact (Kn Ha)|]. rewrite Ha in H.
      match type of H with Ok (_, ?x, _) = _ => assert (s' = x) as -> by congruence end.
      split; [apply (Sim_kept m v s); [reflexivity..|exact HS]|]. split; [congruence|reflexivity].
    - apply Kn, Hs.
    - destruct Hs as (Hby & Hlen & Hs). destruct (valid_packet bs) eqn:Ev.
      + destruct Hs as [-> Hpk]. specialize (Hno bs eq_refl).
        pose proof Ev as Ev'. unfold valid_packet in Ev. apply andb_prop in Ev. destruct Ev as [_ Ev]. apply Nat.leb_le in Ev.
        assert (Hfull : (length (r_deque (rxs s)) < 31)%nat).
        { destruct (Nat.eq_dec (length (r_deque (rxs s))) 31) as [Hx|Hx]; [|rewrite Hq in *; lia]. exfalso.
          assert (full s = true) as Hfu by (unfold full; rewrite Hx; reflexivity).
          clear - Em Hfu Et. unfold machine in Em. rewrite Et, Hfu in Em.
          destruct (r_fsm (rxs s)) as [ph bc by_ ck hb pk pe].
          unfold upd_f_packet_end, upd_f_is_halfbit, machine_bit in *.
          cbn [f_state f_bit_count f_byte f_checksum f_is_halfbit f_packet f_packet_end] in *.
          destruct ph; cbn in Em; try (inversion Em; fail); destruct hb; inversion Em. }
        rewrite accept_ordinary in H; unfold with_fsm; cbn [rxs r_fsm set_r_fsm r_deque r_cv]; rewrite ?Hpk; auto.
        match type of H with Ok (_, ?x, _) = _ => assert (s' = x) as -> by congruence end.
        split; [|split; [congruence|reflexivity]].
        apply (Sim_kept m v s); [reflexivity..|exact HS].
      + destruct Hs as (-> & _). match type of H with Ok (_, ?x, _) = _ => assert (s' = x) as -> by congruence end.
        split; [apply (Sim_kept m v s); [reflexivity..|exact HS]|]. split; [congruence|reflexivity].
  Qed.

  (** No call is left open *)
  Definition still {A} (f : M (I := I) A) : Prop := forall s a s' es, f s = Ok (a, s', es) -> pending s' = pending s.
  Lemma still_bind : forall A B (f : M (I := I) A) (k : A -> M B), still f -> (forall a, still (k a)) -> still (bind f k).
  Proof.
    intros A B f k Hf Hg s b s' es H. apply bind_inv in H. destruct H as (a & s1 & e1 & e2 & H1 & H2 & ->).
    rewrite (Hg _ _ _ _ _ H2). eapply Hf. exact H1.
  Qed.
  Lemma still_ret : forall A (a : A), still (ret a). Proof. intros A a s b s' es H. unfold ret in H. congruence. Qed.
  Lemma still_fail : forall A r, still (fail (A := A) r). Proof. intros A r s b s' es H. discriminate H. Qed.
  Lemma still_lift : forall A (x : res A), still (lift x). Proof. intros A [a|r] s b s' es H; [unfold lift in H; congruence|discriminate H]. Qed.
  Lemma still_get : still get. Proof. intros s b s' es H. unfold get in H. congruence. Qed.
  Lemma still_at : forall bs i, still (at_ bs i). Proof. intros bs i. unfold at_. destruct (nth_error bs i); [apply still_ret|apply still_fail]. Qed.
  Lemma still_modify : forall f, still (modify f). Proof. intros f s b s' es H. unfold modify in H. inversion H; subst. reflexivity. Qed.
  Ltac prim := intros; intros s0 r0 s1 es H0; cbv delta [readCv readCvByte readCvBit writeCv writeCvBit call rand now] beta in H0;
    try match type of H0 with (let '(_, _) := ?x in _) = _ => destruct x end; inversion H0; subst; reflexivity.
  Lemma still_readCv : forall a, still (readCv E a). Proof. prim. Qed.
  Lemma still_readCvByte : forall a b, still (readCvByte E a b). Proof. prim. Qed.
  Lemma still_readCvBit : forall a b k, still (readCvBit E a b k). Proof. prim. Qed.
  Lemma still_writeCv : forall a b, still (writeCv E a b). Proof. prim. Qed.
  Lemma still_writeCvBit : forall a b k, still (writeCvBit E a b k). Proof. prim. Qed.
  Lemma still_call : forall e, still (call E e). Proof. prim. Qed.
  Lemma still_rand : still (rand E). Proof. prim. Qed.
  Lemma still_now : still (now E). Proof. prim. Qed.
  Ltac still1 :=
    lazymatch goal with
    | |- still (bind _ _) => apply still_bind; [|intro]
    | |- still (ret _) => apply still_ret
    | |- still (fail _) => apply still_fail
    | |- still (lift _) => apply still_lift
    | |- still get => apply still_get
    | |- still (at_ _ _) => apply still_at
    | |- still (readCv _ _) => apply still_readCv
    | |- still (readCvByte _ _ _) => apply still_readCvByte
    | |- still (readCvBit _ _ _ _) => apply still_readCvBit
    | |- still (writeCv _ _ _) => apply still_writeCv
    | |- still (writeCvBit _ _ _ _) => apply still_writeCvBit
    | |- still (call _ _) => apply still_call
    | |- still (rand _) => apply still_rand
    | |- still (now _) => apply still_now
    | |- still (modify _) => apply still_modify
    | |- still (if e_async_readable _ then _ else _) => rewrite (proj1 (mem_sync E m Hm))
    | |- still (if e_async_writable _ then _ else _) => rewrite (proj2 (mem_sync E m Hm))
    | |- still (if ?b then _ else _) => destruct b
    | |- still (match ?x with _ => _ end) => destruct x
    | |- still (let _ := _ in _) => cbv zeta
    | |- still ?f => let h := head_of f in unfold h
    end.
  Ltac still_tac := repeat still1.
  Lemma still_dyn_all : forall ds, still (@dyn_all I ds).
  Proof. induction ds as [|d ds IH]; [still_tac|]. apply still_bind; [still_tac|intros _; exact IH]. Qed.
  Lemma still_datagram : forall ds, still (@datagram I ds).
  Proof.
    intros ds. unfold datagram. apply still_bind; [apply still_get|intros r]. apply still_bind; [still_tac|intros _].
    apply still_bind; [apply still_get|intros r']. destruct (block_dyn (r_bidi r')); [apply still_ret|apply still_dyn_all].
  Qed.
  Lemma still_step : forall o s b s' es, pending s = [] -> step E o s = Ok (b, s', es) -> pending s' = [].
  Proof.
    intros o s b s' es Hp H.
    assert (K : forall A (f : M (I := I) A), still f -> bind f (fun _ => ret false) s = Ok (b, s', es) -> pending s' = []).
    { intros A f Hf Hx. rewrite <- Hp. refine (still_bind _ _ f (fun _ => ret false) Hf _ _ _ _ _ Hx). intros; apply still_ret. }
    destruct o; cbn [step] in H.
    - apply (K _ (init E)); [still_tac|exact H].
    - apply (K _ enable); [still_tac|exact H].
    - apply (K _ disable); [still_tac|exact H].
    - apply (K _ (receive E time)); [still_tac|exact H].
    - assert (still (execute E)) as Hx by still_tac. rewrite (Hx _ _ _ _ H). exact Hp.
    - apply (K _ (datagram ds)); [apply still_datagram|exact H].
    - apply (K _ (biDiChannel1 E)); [still_tac|exact H].
    - apply (K _ (biDiChannel2 E)); [still_tac|exact H].
    - rewrite Hp in H. destruct i; cbn [nth_error] in H; congruence.
  Qed.

  Lemma regs_dyn_all : forall ds, keeps regs (@dyn_all I ds).
  Proof. induction ds as [|d ds IH]; [keeps_tac|]. apply keeps_bind; [keeps_tac|intros _; exact IH]. Qed.
  Lemma regs_datagram : forall ds, keeps regs (@datagram I ds).
  Proof.
    intros ds. unfold datagram. apply keeps_bind; [apply keeps_get|intros r]. apply keeps_bind; [keeps_tac|intros _].
    apply keeps_bind; [apply keeps_get|intros r']. destruct (block_dyn (r_bidi r')); [apply keeps_ret|apply regs_dyn_all].
  Qed.
  Lemma quiet_dyn_all : forall ds, quiet m (@dyn_all I ds).
  Proof. induction ds as [|d ds IH]; [quiet_tac Hm|]. apply quiet_bind; [quiet_tac Hm|intros _; exact IH]. Qed.
  Lemma quiet_datagram : forall ds, quiet m (@datagram I ds).
  Proof.
    intros ds. unfold datagram. apply quiet_bind; [apply quiet_get|intros r]. apply quiet_bind; [quiet_tac Hm|intros _].
    apply quiet_bind; [apply quiet_get|intros r']. destruct (block_dyn (r_bidi r')); [apply quiet_ret|apply quiet_dyn_all].
  Qed.
  Lemma plain_dyn_all : forall ds, emits plain (@dyn_all I ds).
  Proof. induction ds as [|d ds IH]; [emits_tac|]. apply emits_bind; [emits_tac|intros _; exact IH]. Qed.
  Lemma plain_datagram : forall ds, emits plain (@datagram I ds).
  Proof.
    intros ds. unfold datagram. apply emits_bind; [apply emits_get|intros r]. apply emits_bind; [emits_tac|intros _].
    apply emits_bind; [apply emits_get|intros r']. destruct (block_dyn (r_bidi r')); [apply emits_ret|apply plain_dyn_all].
  Qed.

  (** All that holds between the calls *)
  Definition good (l : listener) (v : view) s : Prop :=
    reached E s /\ Rl l s /\ Sim v s /\ byte (page s) /\ pending s = [].

  Lemma good_page : forall l v s, good l v s -> byte (v_page v).
  Proof.
    intros l v s (_ & _ & (_ & _ & HS & _) & Hp & _). unfold regs in HS. unfold page in Hp.
    assert (index_reg (r_cv (rxs s)) = v_page v) as <- by congruence. exact Hp.
  Qed.

  Lemma fst_idle : forall (v : view) (x : view * list seen), x = (v, []) -> fst x = v /\ snd x = [].
  Proof. intros v x ->. auto. Qed.

  Lemma layout_step : forall o l v s b s' es, Rl l s -> Sim v s -> byte (v_page v) -> pending s = [] ->
    (forall p q, ready s p q -> Forall byte p /\ (3 <= length p)%nat) -> step E o s = Ok (b, s', es) ->
    (forall bs, completed o l = Some bs -> is_logon bs = false) ->
    let x := obey_all (e_east_west E) (match o with OExecute => if l_fresh l then [] else firstn 1 (l_queue l) | _ => [] end) v in
    Forall (allowed able) (snd x) -> Sim (fst x) s' /\ seen_in es = snd x.
  Proof.
    intros o l v s b s' es HR HS Hvp Hpe Hre H Hno.
    assert (K : forall A (f : M (I := I) A), simulates f idle -> bind f (fun _ => ret false) s = Ok (b, s', es) -> Sim v s' /\ seen_in es = []).
    { intros A f Hf Hx. exact (sim_then_idle m able _ _ f (fun _ => ret false) idle Hf (fun _ => sim_ret m able _ _) _ _ _ _ _ HS Hx (Forall_nil _)). }
    destruct o; cbn [step] in H; cbv zeta; cbn [obey_all fst snd]; intros Hra.
    - apply (K _ (init E)); [|exact H]. clear - Hk. intros s v u s' es HS H _. cbn [idle fst snd].
      assert (keeps regs (init E)) as Kr by keeps_tac. pose proof (Kr _ _ _ _ H) as Hregs. clear Kr.
      destruct (init_memory E m s (proj1 Hk)) as [[_ Hu]|(_ & t & Ht & Hconf & _ & Hmt)]; [congruence|].
      assert (s' = t) as -> by congruence. assert (es = config_calls (m (app s)) (e_high_current E)) as -> by congruence.
      split; [|apply plain_config]. destruct HS as (A & B & C & D).
      assert (logon (r_addrs (rxs t)) = logon (r_addrs (rxs s))) as El by (unfold regs in Hregs; congruence).
      split; [intros a; rewrite Hmt; apply A|]. split.
      + apply (active_pointwise t (m (app s)) (v_cvs v) A). exact (proj1 Hconf).
      + rewrite El. split; [rewrite Hregs; exact C|exact D].
    - apply (K _ enable); [|exact H]. apply sim_idle; [keeps_tac|quiet_tac Hm|emits_tac].
    - apply (K _ disable); [|exact H]. apply sim_idle; [keeps_tac|quiet_tac Hm|emits_tac].
    - apply bind_inv in H. destruct H as ([] & s1 & e1 & e2 & H1 & H2 & ->). unfold ret in H2.
      assert (s' = s1) as -> by congruence. assert (e2 = []) as -> by congruence.
      destruct (sim_receive l v s time s1 e1 HR HS Hno H1) as (A & -> & _). auto.
    - pose proof (sim_execute v s b s' es Hre HS Hvp H) as Hx. destruct HR as (_ & Hq & Hf & _).
      destruct Hx as [(-> & -> & Hn)|(p & q & Hr & Hx)].
      + assert ((if l_fresh l then [] else firstn 1 (l_queue l)) = []) as Ee.
        { destruct (l_fresh l) eqn:Ef; [reflexivity|]. destruct (l_queue l) as [|p q] eqn:Eq; [reflexivity|].
          elim (Hn p q). split; [exact Hf|exact Hq]. }
        rewrite Ee in *. cbn [obey_all fst snd] in *. auto.
      + assert ((if l_fresh l then [] else firstn 1 (l_queue l)) = [p]) as Ee.
        { destruct Hr as [R1 R2]. rewrite <- Hf, R1, <- Hq, R2. reflexivity. }
        rewrite Ee in *. cbn [obey_all] in *. destruct (obey (e_east_west E) p v) as [v1 a]. cbn [fst snd] in *. rewrite app_nil_r in *.
         exact (Hx Hra).
    - apply (K _ (datagram ds)); [|exact H]. apply sim_idle; [apply regs_datagram|apply quiet_datagram|apply plain_datagram].
    - apply (K _ (biDiChannel1 E)); [|exact H]. apply sim_idle; [keeps_tac|quiet_tac Hm|emits_tac; reflexivity].
    - apply (K _ (biDiChannel2 E)); [|exact H]. apply sim_idle; [keeps_tac|quiet_tac Hm|emits_tac; reflexivity].
    - rewrite Hpe in H. destruct i; cbn [nth_error] in H; (assert (s' = s) as -> by congruence); (assert (es = []) as -> by congruence); auto.
  Qed.

  Lemma good_step : forall o l v s b s' es, good l v s -> step E o s = Ok (b, s', es) ->
    (forall bs, completed o l = Some bs -> is_logon bs = false) ->
    let x := obey_all (e_east_west E) (match o with OExecute => if l_fresh l then [] else firstn 1 (l_queue l) | _ => [] end) v in
    Forall (allowed able) (snd x) -> good (listen o l) (fst x) s' /\ seen_in es = snd x.
  Proof.
    intros o l v s b s' es Hg H Hno x Hra. pose proof (good_page _ _ _ Hg) as Hvp. destruct Hg as (Hre & HR & HS & Hpg & Hpe).
    destruct (layout_step o l v s b s' es HR HS Hvp Hpe (fun p q => reached_ready E s p q Hre) H Hno Hra) as [A B].
    split; [|exact B]. split; [exact (reached_step E s o b s' es Hre H)|]. split; [exact (step_refines E o l s b s' es HR H)|].
    split; [exact A|]. split; [exact (page_step E s o b s' es Hre Hpg H)|exact (still_step o s b s' es Hpe H)].
  Qed.

  Lemma obey_app : forall ew a b v, obey_all ew (a ++ b) v =
    (fst (obey_all ew b (fst (obey_all ew a v))), snd (obey_all ew a v) ++ snd (obey_all ew b (fst (obey_all ew a v)))).
  Proof.
    intros ew. induction a as [|p a IH]; intros b v; cbn [List.app obey_all fst snd]; [apply surjective_pairing|].
    destruct (obey ew p v) as [v1 x]. rewrite IH. destruct (obey_all ew a v1) as [v2 y]. cbn [fst snd]. rewrite app_assoc. reflexivity.
  Qed.

  Lemma good_run : forall os l v s s' es, good l v s -> run E os s = Ok (tt, s', es) -> logons os l = [] ->
    let x := obey_all (e_east_west E) (taken os l) v in
    Forall (allowed able) (snd x) -> good (listen_all os l) (fst x) s' /\ seen_in es = snd x.
  Proof.
    induction os as [|o os IH]; intros l v s s' es Hg H Hlo; cbv zeta.
    - cbn [run] in H. unfold ret in H. assert (s' = s) as -> by congruence. assert (es = []) as -> by congruence. auto.
    - cbn [run] in H. apply bind_inv in H. destruct H as (b & s1 & e1 & e2 & H1 & H2 & ->).
      cbn [logons] in Hlo. apply app_eq_nil in Hlo. destruct Hlo as [Hl1 Hl2].
      cbn [taken]. rewrite obey_app. cbn [fst snd]. intros Hra. apply Forall_app in Hra. destruct Hra as [Hr1 Hr2].
      assert (Hno : forall bs, completed o l = Some bs -> is_logon bs = false).
      { intros bs Hc. rewrite Hc in Hl1. destruct (is_logon bs); [discriminate|reflexivity]. }
      destruct (good_step o l v s b s1 e1 Hg H1 Hno Hr1) as [G1 S1].
      destruct (IH _ _ _ _ _ G1 H2 Hl2 Hr2) as [G2 S2].
      split; [exact G2|]. rewrite seen_app, S1, S2. reflexivity.
  Qed.

  Lemma good_new : forall i s es, run E [OInit] (st0 i) = Ok (tt, s, es) ->
    good listener0 (new_view (m i)) s /\ seen_in es = [].
  Proof.
    intros i s es H. pose proof H as H0. cbn [run step] in H.
    apply bind_inv in H. destruct H as (b & s1 & e1 & e2 & H1 & H2 & ->). unfold ret in H2.
    assert (s = s1) as -> by congruence. assert (e2 = []) as -> by congruence. rewrite app_nil_r in *. clear H2.
    pose proof H1 as HR. apply bind_inv in H1. destruct H1 as (u & s2 & e2 & e3 & H1 & H2 & ->). unfold ret in H2.
    assert (s1 = s2) as -> by congruence. assert (e3 = []) as -> by congruence. rewrite app_nil_r in *. clear H2 HR.
    assert (keeps regs (init E)) as Kr by keeps_tac. pose proof (Kr _ _ _ _ H1) as Hregs.
    assert (still (init E)) as Ks by still_tac. pose proof (Ks _ _ _ _ H1) as Hpend.
    pose proof (core_init E _ _ _ _ H1) as Hcore.
    destruct (init_memory E m (st0 i) Hm) as [[_ Hu]|(_ & t & Ht & Hconf & _ & Hmt)]; [congruence|].
    assert (s2 = t) as -> by congruence. assert (e2 = config_calls (m (app (st0 i))) (e_high_current E)) as -> by congruence.
    split; [|apply plain_config]. unfold good.
    split; [exists i, [OInit], (config_calls (m (app (st0 i))) (e_high_current E)); exact H0|].
    split; [exact (Rl_core _ _ _ Hcore (Rl0 i))|].
    assert (logon (r_addrs (rxs t)) = logon (r_addrs (rxs (st0 i)))) as El by (unfold regs in Hregs; congruence).
    split; [|split; [|exact Hpend]].
    - split; [intros a; rewrite Hmt; reflexivity|]. split; [exact (proj1 Hconf)|].
      rewrite El. split; [rewrite Hregs; reflexivity|reflexivity].
    - unfold page. assert (index_reg (r_cv (rxs t)) = index_reg (r_cv (rxs (st0 i)))) as -> by (unfold regs in Hregs; congruence).
      unfold byte. cbn. lia.
  Qed.

  (** From the start *)
  Lemma layout : forall os i s es, run E (OInit :: os) (st0 i) = Ok (tt, s, es) -> logons os listener0 = [] ->
    let x := obey_all (e_east_west E) (taken os listener0) (new_view (m i)) in
    Forall (allowed able) (snd x) ->
    seen_in es = snd x /\ (forall a, m (app s) a = v_cvs (fst x) a) /\ in_service s = v_service (fst x) /\ page s = v_page (fst x).
  Proof.
    intros os i s es H Hlo x Hra. subst x. change (OInit :: os) with ([OInit] ++ os) in H.
    apply run_app in H. destruct H as (s1 & e1 & e2 & H1 & H2 & ->).
    destruct (good_new i s1 e1 H1) as [G1 S1].
    destruct (good_run os _ _ _ _ _ G1 H2 Hlo Hra) as [(_ & _ & HS & _) S2].
    rewrite seen_app, S1, S2. split; [reflexivity|].
    split; [exact (proj1 HS)|]. destruct HS as (_ & _ & HS & _). unfold regs in HS. unfold in_service, page. split; congruence.
  Qed.
End Step.
