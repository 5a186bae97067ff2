(** The decoder model simulates the interpreter of SpecNode.v: CV accesses *)
From Verif Require Import Prelude Address Instruction Datagram ZBits SpecCodec RxState Rx CodecProofs CodecProofs2 RxLogic SpecRx RxBitProofs
  SpecExec ExecProofs SpecConf ConfProofs ConfProofs2 SpecCv CvProofs CvProofs2 SpecLogon SpecLayout LayoutProofs SpecNode.

Section Sim.
  Context {I : Type} (E : Env I) (m : I -> Z -> Z) (able : access -> Prop) (Hk : keeps_cvs able E m).
  Implicit Types s : st I.

  Let Hm : cv_memory E m := proj1 Hk.

  Definition nregs (r : rx) :=
    ((service_mode (r_cv r), index_reg (r_cv r), last_own_cv_packet (r_cv r), own_equal_cv_packets_count (r_cv r)),
     (primary (r_addrs r), consist (r_addrs r), logon (r_addrs r)), r_conf r,
     (logon_selected (r_logon r), logon_assigned (r_logon r), logon_store (r_logon r)),
     (cid_front (r_logon r), sid_front (r_logon r)), (cid_back (r_logon r), sid_back (r_logon r))).
  Definition registers (n : node) :=
    ((v_service (n_view n), v_page (n_view n), v_last (n_view n), v_times (n_view n)),
     (n_own n, n_consist n, n_logon n), n_conf n, (n_selected n, n_assigned n, n_store n), n_known n, n_new n).

  Definition Sim (n : node) s : Prop :=
    (forall a, m (app s) a = v_cvs (n_view n) a) /\ nregs (rxs s) = registers n.

  Definition simulates {A} (f : M (I := I) A) (g : node -> node * list seen) : Prop :=
    forall s n u s' es, Sim n s -> f s = Ok (u, s', es) -> Forall (allowed able) (snd (g n)) ->
    Sim (fst (g n)) s' /\ seen_in es = snd (g n).

  Definition idle (n : node) : node * list seen := (n, []).
  Definition next (f g : node -> node * list seen) (n : node) : node * list seen :=
    (fst (g (fst (f n))), snd (f n) ++ snd (g (fst (f n)))).

  Lemma simulates_bind : forall A B (f : M (I := I) A) (k : A -> M B) g h,
    simulates f g -> (forall a, simulates (k a) h) -> simulates (bind f k) (next g h).
  Proof.
    intros A B f k g h Hf Hh s v u s' es HS H Hr. apply bind_inv in H. destruct H as (a & s1 & e1 & e2 & H1 & H2 & ->).
    unfold next in *. cbn [fst snd] in *. apply Forall_app in Hr. destruct Hr as [Hr1 Hr2].
    destruct (Hf _ _ _ _ _ HS H1 Hr1) as [S1 C1]. destruct (Hh a _ _ _ _ _ S1 H2 Hr2) as [S2 C2].
    split; [exact S2|]. rewrite seen_app, C1, C2. reflexivity.
  Qed.

  Lemma sim_ext : forall A (f : M (I := I) A) g h, (forall v, g v = h v) -> simulates f g -> simulates f h.
  Proof. intros A f g h H Hf s v u s' es. rewrite <- (H v). apply Hf. Qed.

  Lemma Sim_kept : forall n s s', nregs (rxs s') = nregs (rxs s) -> m (app s') = m (app s) -> Sim n s -> Sim n s'.
  Proof. intros n s s' H1 H3 (A & B). split; [intros a; rewrite H3; apply A|congruence]. Qed.

  Lemma sim_idle : forall A (f : M (I := I) A), keeps nregs f -> quiet m f -> emits plain f -> simulates f idle.
  Proof.
    intros A f H1 H2 H3 s v u s' es HS H _. unfold idle. cbn [fst snd].
    destruct (H2 _ _ _ _ H) as (_ & Q2 & _).
    split; [exact (Sim_kept v s s' (H1 _ _ _ _ H) Q2 HS)|]. apply plain_seen. exact (H3 _ _ _ _ H).
  Qed.

  Lemma sim_bind_idle : forall A B (f : M (I := I) A) (k : A -> M B) h,
    simulates f idle -> (forall a, simulates (k a) h) -> simulates (bind f k) h.
  Proof.
    intros A B f k h Hf Hh. apply (sim_ext _ _ (next idle h)); [|apply simulates_bind; assumption].
    intros v. unfold next, idle. cbn [fst snd List.app]. symmetry. apply surjective_pairing.
  Qed.
  Lemma sim_then_idle : forall A B (f : M (I := I) A) (k : A -> M B) h,
    simulates f h -> (forall a, simulates (k a) idle) -> simulates (bind f k) h.
  Proof.
    intros A B f k h Hf Hh. apply (sim_ext _ _ (next h idle)); [|apply simulates_bind; assumption].
    intros v. unfold next, idle. cbn [fst snd List.app]. rewrite app_nil_r. symmetry. apply surjective_pairing.
  Qed.

  Lemma sim_ret : forall A (a : A), simulates (ret a) idle.
  Proof. intros. apply sim_idle; [apply keeps_ret|apply quiet_ret|apply emits_ret]. Qed.

  Lemma sim_locked : forall n s, Sim n s -> cvs_locked (r_conf (rxs s)) = cvs_locked (n_conf n).
  Proof. intros n s (_ & H). unfold nregs, registers in H. congruence. Qed.
  Lemma sim_mode : forall n s, Sim n s -> service_mode (r_cv (rxs s)) = v_service (n_view n).
  Proof. intros n s (_ & H). unfold nregs, registers in H. congruence. Qed.
  Lemma sim_consist : forall n s, Sim n s -> consist (r_addrs (rxs s)) = n_consist n.
  Proof. intros n s (_ & H). unfold nregs, registers in H. congruence. Qed.

  (** A callback after an access: an answer on track or an acknowledgement *)
  Lemma cb_byte_out : forall b r s u s' es, cb_byte E b r s = Ok (u, s', es) ->
    nregs (rxs s') = nregs (rxs s) /\ m (app s') = m (app s) /\
    seen_in es = if service_mode (r_cv (rxs s)) && (b =? r) then [Told EServiceAck] else [].
  Proof.
    intros b r s u s' es H.
    assert (keeps nregs (cb_byte E b r)) as K by keeps_tac. pose proof (K _ _ _ _ H) as K1.
    destruct (LayoutProofs.cb_byte_out E m able Hk _ _ _ _ _ _ H) as (_ & _ & Q2 & Q3). auto.
  Qed.
  Lemma cb_bit_out : forall b r s u s' es, cb_bit E b r s = Ok (u, s', es) ->
    nregs (rxs s') = nregs (rxs s) /\ m (app s') = m (app s) /\
    seen_in es = if service_mode (r_cv (rxs s)) && Bool.eqb b r then [Told EServiceAck] else [].
  Proof.
    intros b r s u s' es H.
    assert (keeps nregs (cb_bit E b r)) as K by keeps_tac. pose proof (K _ _ _ _ H) as K1.
    destruct (LayoutProofs.cb_bit_out E m able Hk _ _ _ _ _ _ H) as (_ & _ & Q2 & Q3). auto.
  Qed.

  Lemma same_view : forall n, on_view (with_cvs (v_cvs (n_view n))) n = n.
  Proof. intros [[] ? ? ? ? ? ? ? ? ?]. reflexivity. Qed.

  Lemma sim_cvVerify : forall a b, simulates (cvVerify E a b) (carry (Check a b)).
  Proof.
    intros a b s n u s' es HS H _. unfold cvVerify in H. rewrite bind_get, (sim_locked n s HS) in H.
    unfold carry, permitted. cbn [is_writing andb]. rewrite orb_false_r.
    destruct (cvs_locked (n_conf n)); cbn [negb fst snd].
    { unfold ret in H. assert (s' = s) as -> by congruence. assert (es = []) as -> by congruence. auto. }
    rewrite (proj1 (mem_sync E m Hm)) in H. apply bind_inv in H. destruct H as (r & s1 & e1 & e2 & H1 & H2 & ->).
    unfold readCvByte in H1. pose proof (mem_readByte E m Hm (app s) a b) as K.
    destruct (e_readCvByte E (app s) a b) as [w i]. cbn [fst snd] in K. destruct K as [Kv Km].
    assert (r = u8 w) as -> by congruence. assert (e1 = [EReadCvByte a b (u8 w)]) as -> by congruence.
    assert (s1 = Mk_st (rxs s) i (pending s)) as -> by congruence. clear H1.
    destruct (cb_byte_out _ _ _ _ _ _ H2) as (R1 & R3 & R4). cbn [rxs app] in *.
    unfold configuring. cbn [is_writing andb after]. rewrite same_view. split.
    - apply (Sim_kept _ s); try assumption. congruence.
    - rewrite seen_app, R4. cbn [seen_in flat_map seen_of access_of map List.app]. f_equal.
      rewrite (sim_mode n s HS), Kv. destruct HS as (HS & _). cbn [agrees]. rewrite (HS a). reflexivity.
  Qed.
  Lemma sim_cvVerifyBit : forall a b k, 0 <= k < 8 -> simulates (cvVerifyBit E a b k) (carry (CheckBit a b k)).
  Proof.
    intros a b k Hk8 s n u s' es HS H _. unfold cvVerifyBit in H. rewrite bind_get, (sim_locked n s HS) in H.
    unfold carry, permitted. cbn [is_writing andb]. rewrite orb_false_r.
    destruct (cvs_locked (n_conf n)); cbn [negb fst snd].
    { unfold ret in H. assert (s' = s) as -> by congruence. assert (es = []) as -> by congruence. auto. }
    rewrite (proj1 (mem_sync E m Hm)) in H. apply bind_inv in H. destruct H as (r & s1 & e1 & e2 & H1 & H2 & ->).
    unfold readCvBit in H1. pose proof (mem_readBit E m Hm (app s) a b k Hk8) as K.
    destruct (e_readCvBit E (app s) a b k) as [w i]. cbn [fst snd] in K. destruct K as [Kv Km].
    assert (r = w) as -> by congruence. assert (e1 = [EReadCvBit a b k w]) as -> by congruence.
    assert (s1 = Mk_st (rxs s) i (pending s)) as -> by congruence. clear H1.
    destruct (cb_bit_out _ _ _ _ _ _ H2) as (R1 & R3 & R4). cbn [rxs app] in *.
    unfold configuring. cbn [is_writing andb after]. rewrite same_view. split.
    - apply (Sim_kept _ s); try assumption. congruence.
    - rewrite seen_app, R4. cbn [seen_in flat_map seen_of access_of map List.app]. f_equal.
      rewrite (sim_mode n s HS), Kv. destruct HS as (HS & _). cbn [agrees]. rewrite (HS a). reflexivity.
  Qed.

  (** Reading the configuration *)
  Lemma own_ext : forall c d, (forall a, c a = d a) -> own_address c = own_address d.
  Proof. intros c d H. unfold own_address, cv. rewrite !H. reflexivity. Qed.
  Lemma consist_ext : forall c d, (forall a, c a = d a) -> consist_address c = consist_address d.
  Proof. intros c d H. unfold consist_address, cv. rewrite !H. reflexivity. Qed.
  Lemma switches_ext : forall c d, (forall a, c a = d a) -> switches c = switches d.
  Proof. intros c d H. unfold switches, cv. rewrite !H. reflexivity. Qed.

  Lemma sim_init : simulates (init E) (fun n => (configure n, [])).
  Proof.
    intros s n u s' es (A & B) H _. cbn [fst snd].
    destruct (init_memory E m s Hm) as [[_ Hu]|(_ & t & Ht & ((C1 & C2 & C3) & C4 & C5 & C6) & Hu & Hmt)]; [congruence|].
    assert (s' = t) as -> by congruence. assert (es = config_calls (m (app s)) (e_high_current E)) as -> by congruence.
    split; [|apply plain_config]. split; [intros a; rewrite Hmt; apply A|].
    assert (r_conf (rxs t) = switches (v_cvs (n_view n))) as Hc.
    { rewrite <- (switches_ext _ _ A). destruct (r_conf (rxs t)), (switches (m (app s))). unfold upd_did in C3.
      cbn in C3, C4. congruence. }
    unfold nregs, registers, configure in *. cbn [n_view n_own n_consist n_logon n_conf n_selected n_assigned n_store n_known n_new].
    rewrite C1, C2, C5, C6, Hc. rewrite (own_ext _ _ A), (consist_ext _ _ A). unfold cv. rewrite !A.
    unfold unconfigured in Hu.
    assert (r_cv (rxs t) = r_cv (rxs s)) as -> by congruence.
    assert (logon (r_addrs (rxs t)) = logon (r_addrs (rxs s))) as -> by congruence.
    assert (upd_cid_front 0 (upd_sid_front 0 (r_logon (rxs t))) = upd_cid_front 0 (upd_sid_front 0 (r_logon (rxs s)))) as Hl by congruence.
    pose proof (f_equal logon_selected Hl) as L1. pose proof (f_equal logon_assigned Hl) as L2. pose proof (f_equal logon_store Hl) as L3.
    pose proof (f_equal cid_back Hl) as L4. pose proof (f_equal sid_back Hl) as L5. cbn in L1, L2, L3, L4, L5.
    rewrite L1, L2, L3, L4, L5. congruence.
  Qed.

  Definition reread (a : Z) (n : node) : node * list seen :=
    (if existsb (Z.eqb a) config_cvs then configure n else n, []).
  Lemma sim_reinit : forall a, simulates (reinit E a) (reread a).
  Proof.
    intros a. unfold reinit, when, reread. change config_cvs with init_cvs. destruct (existsb (Z.eqb a) init_cvs); [apply sim_init|apply sim_ret].
  Qed.

  Lemma Sim_written : forall n s s' c, Sim n s -> nregs (rxs s') = nregs (rxs s) -> (forall a, m (app s') a = c a) ->
    Sim (on_view (with_cvs c) n) s'.
  Proof. intros n s s' c (A & B) H1 H3. split; [exact H3|]. rewrite H1, B. reflexivity. Qed.

  Lemma sim_cvWrite : forall a b, byte b -> simulates (cvWrite E a b) (carry (Store a b)).
  Proof.
    intros a b Hb s n u s' es HS H Hr.
    unfold cvWrite in H. rewrite bind_get, (sim_locked n s HS) in H.
    assert (Hp : permitted (cvs_locked (n_conf n)) (Store a b) = negb (cvs_locked (n_conf n) && negb (a =? 14))).
    { unfold permitted. cbn [is_writing target andb]. rewrite negb_andb, negb_involutive. reflexivity. }
    unfold carry in *. rewrite Hp in *. clear Hp.
    destruct (cvs_locked (n_conf n) && negb (a =? 14)); cbn [negb fst snd] in *.
    { unfold ret in H. assert (s' = s) as -> by congruence. assert (es = []) as -> by congruence. auto. }
    inversion Hr as [|? ? Hra _]; subst. cbn [allowed is_writing] in Hra. specialize (Hra eq_refl).
    rewrite (proj2 (mem_sync E m Hm)) in H. apply bind_inv in H. destruct H as (u1 & s2 & e1 & e2 & H1 & H2 & ->).
    apply bind_inv in H1. destruct H1 as (r & s1 & e3 & e4 & H1 & H3 & ->).
    unfold writeCv in H1. pose proof (mem_write E m Hm (app s) a b) as K.
    pose proof (proj1 (proj2 Hk) (app s) a b Hra Hb) as Kw.
    destruct (e_writeCv E (app s) a b) as [w i]. cbn [fst snd] in K, Kw. destruct K as [Kv Km].
    assert (r = u8 w) as -> by congruence. assert (e3 = [EWriteCv a b (u8 w)]) as -> by congruence.
    assert (s1 = Mk_st (rxs s) i (pending s)) as -> by congruence. clear H1.
    destruct (cb_byte_out _ _ _ _ _ _ H3) as (R1 & R3 & R4). cbn [rxs app] in *.
    assert (Sim (on_view (with_cvs (after (Store a b) (v_cvs (n_view n)))) n) s2) as HS2.
    { apply (Sim_written n s); try assumption. intros x. rewrite R3. cbn [after]. unfold set_cv.
      destruct (Z.eqb_spec x a) as [->|Hx]; [exact Kw|]. rewrite (Km x Hx). destruct HS as (HS & _). apply HS. }
    destruct (sim_reinit a _ _ _ _ _ HS2 H2 (Forall_nil _)) as [HS3 R6].
    split; [exact HS3|]. rewrite !seen_app, R4, R6. cbn [snd reread]. rewrite app_nil_r.
    cbn [seen_in flat_map seen_of access_of map List.app]. f_equal.
    rewrite (sim_mode n s HS), Kv, Kw. cbn [agrees after]. unfold set_cv. rewrite (Z.eqb_refl a). reflexivity.
  Qed.

  Lemma sim_cvWriteBit : forall a b k, 0 <= k < 8 -> simulates (cvWriteBit E a b k) (carry (StoreBit a b k)).
  Proof.
    intros a b k Hk8 s n u s' es HS H Hr.
    unfold cvWriteBit in H. rewrite bind_get, (sim_locked n s HS) in H.
    assert (Hp : permitted (cvs_locked (n_conf n)) (StoreBit a b k) = negb (cvs_locked (n_conf n) && negb (a =? 14))).
    { unfold permitted. cbn [is_writing target andb]. rewrite negb_andb, negb_involutive. reflexivity. }
    unfold carry in *. rewrite Hp in *. clear Hp.
    destruct (cvs_locked (n_conf n) && negb (a =? 14)); cbn [negb fst snd] in *.
    { unfold ret in H. assert (s' = s) as -> by congruence. assert (es = []) as -> by congruence. auto. }
    inversion Hr as [|? ? Hra _]; subst. cbn [allowed is_writing] in Hra. specialize (Hra eq_refl).
    rewrite (proj2 (mem_sync E m Hm)) in H. apply bind_inv in H. destruct H as (u1 & s2 & e1 & e2 & H1 & H2 & ->).
    apply bind_inv in H1. destruct H1 as (r & s1 & e3 & e4 & H1 & H3 & ->).
    unfold writeCvBit in H1. pose proof (mem_writeBit E m Hm (app s) a b k Hk8) as K.
    pose proof (proj2 (proj2 Hk) (app s) a b k Hra Hk8) as Kw.
    destruct (e_writeCvBit E (app s) a b k) as [w i]. cbn [fst snd] in K, Kw. destruct K as [Kv Km].
    assert (r = w) as -> by congruence. assert (e3 = [EWriteCvBit a b k w]) as -> by congruence.
    assert (s1 = Mk_st (rxs s) i (pending s)) as -> by congruence. clear H1.
    destruct (cb_bit_out _ _ _ _ _ _ H3) as (R1 & R3 & R4). cbn [rxs app] in *.
    assert (forall x, m (app s2) x = after (StoreBit a b k) (v_cvs (n_view n)) x) as Hx.
    { intros x. rewrite R3. cbn [after]. unfold set_cv.
      destruct HS as (HS & _). destruct (Z.eqb_spec x a) as [->|Hx]; [rewrite Kw, HS; reflexivity|]. rewrite (Km x Hx). apply HS. }
    assert (Sim (on_view (with_cvs (after (StoreBit a b k) (v_cvs (n_view n)))) n) s2) as HS2 by (apply (Sim_written n s); assumption).
    destruct (sim_reinit a _ _ _ _ _ HS2 H2 (Forall_nil _)) as [HS3 R6].
    split; [exact HS3|]. rewrite !seen_app, R4, R6. cbn [snd reread]. rewrite app_nil_r.
    cbn [seen_in flat_map seen_of access_of map List.app]. f_equal.
    rewrite (sim_mode n s HS), Kv. cbn [agrees]. rewrite <- (Hx a), R3. reflexivity.
  Qed.

  (** Writing without lock and callback *)
  Definition put (x : access) (n : node) : node * list seen := (on_view (with_cvs (after x (v_cvs (n_view n)))) n, [Access x]).
  Lemma sim_writeCv : forall a b, byte b -> simulates (writeCv E a b) (put (Store a b)).
  Proof.
    intros a b Hb s n u s' es HS H Hr. unfold put in *. cbn [fst snd] in *.
    inversion Hr as [|? ? Hra _]; subst. cbn [allowed is_writing] in Hra. specialize (Hra eq_refl).
    unfold writeCv in H. pose proof (mem_write E m Hm (app s) a b) as K.
    pose proof (proj1 (proj2 Hk) (app s) a b Hra Hb) as Kw.
    destruct (e_writeCv E (app s) a b) as [w i]. cbn [fst snd] in K, Kw. destruct K as [Kv Km].
    assert (es = [EWriteCv a b (u8 w)]) as -> by congruence.
    assert (s' = Mk_st (rxs s) i (pending s)) as -> by congruence. split; [|reflexivity].
    apply (Sim_written n s); [exact HS|reflexivity|]. intros x. cbn [app after]. unfold set_cv.
    destruct (Z.eqb_spec x a) as [->|Hx]; [exact Kw|]. rewrite (Km x Hx). destruct HS as (HS & _). apply HS.
  Qed.
  Lemma sim_writeCvBit : forall a b k, 0 <= k < 8 -> simulates (writeCvBit E a b k) (put (StoreBit a b k)).
  Proof.
    intros a b k Hk8 s n u s' es HS H Hr. unfold put in *. cbn [fst snd] in *.
    inversion Hr as [|? ? Hra _]; subst. cbn [allowed is_writing] in Hra. specialize (Hra eq_refl).
    unfold writeCvBit in H. pose proof (mem_writeBit E m Hm (app s) a b k Hk8) as K.
    pose proof (proj2 (proj2 Hk) (app s) a b k Hra Hk8) as Kw.
    destruct (e_writeCvBit E (app s) a b k) as [w i]. cbn [fst snd] in K, Kw. destruct K as [Kv Km].
    assert (es = [EWriteCvBit a b k w]) as -> by congruence.
    assert (s' = Mk_st (rxs s) i (pending s)) as -> by congruence. split; [|reflexivity].
    apply (Sim_written n s); [exact HS|reflexivity|]. intros x. cbn [app after]. unfold set_cv.
    destruct HS as (HS & _). destruct (Z.eqb_spec x a) as [->|Hx]; [rewrite Kw, HS; reflexivity|]. rewrite (Km x Hx). apply HS.
  Qed.
End Sim.
