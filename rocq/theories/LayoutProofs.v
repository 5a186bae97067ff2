(** The decoder model simulates the interpreter of SpecLayout.v *)
From Verif Require Import Prelude Address Instruction Datagram ZBits SpecCodec RxState Rx CodecProofs CodecProofs2 RxLogic SpecRx RxBitProofs
  SpecExec ExecProofs SpecConf ConfProofs ConfProofs2 SpecCv CvProofs CvProofs2 SpecLayout.

Lemma seen_app : forall a b, seen_in (a ++ b) = seen_in a ++ seen_in b.
Proof. intros a b. unfold seen_in. apply flat_map_app. Qed.

Section Sim.
  Context {I : Type} (E : Env I) (m : I -> Z -> Z) (able : access -> Prop) (Hk : keeps_cvs able E m).
  Implicit Types s : st I.

  Let Hm : cv_memory E m := proj1 Hk.

  Definition regs (r : rx) :=
    (service_mode (r_cv r), index_reg (r_cv r), last_own_cv_packet (r_cv r), own_equal_cv_packets_count (r_cv r),
     logon (r_addrs r), logon_store (r_logon r)).

  Definition Sim (v : view) s : Prop :=
    (forall a, m (app s) a = v_cvs v a) /\ active (v_cvs v) s /\
    regs (rxs s) = (v_service v, v_page v, v_last v, v_times v, logon (r_addrs (rxs s)), false) /\
    aval (logon (r_addrs (rxs s))) = 0.

  Definition plain (e : event) : Prop := seen_of e = [].
  Lemma plain_seen : forall es, Forall plain es -> seen_in es = [].
  Proof.
    induction es as [|e es IH]; intros H; [reflexivity|]. inversion H as [|? ? H1 H2]; subst.
    unfold seen_in in *. cbn [flat_map]. rewrite H1, (IH H2). reflexivity.
  Qed.

  Definition simulates {A} (f : M (I := I) A) (g : view -> view * list seen) : Prop :=
    forall s v u s' es, Sim v s -> f s = Ok (u, s', es) -> Forall (allowed able) (snd (g v)) ->
    Sim (fst (g v)) s' /\ seen_in es = snd (g v).

  Definition idle (v : view) : view * list seen := (v, []).
  Definition next (f g : view -> view * list seen) (v : view) : view * list seen :=
    (fst (g (fst (f v))), snd (f v) ++ snd (g (fst (f v)))).

  Lemma simulates_bind : forall A B (f : M (I := I) A) (k : A -> M B) g h,
    simulates f g -> (forall a, simulates (k a) h) -> simulates (bind f k) (next g h).
  Proof.
    intros A B f k g h Hf Hh s v u s' es HS H Hr. apply bind_inv in H. destruct H as (a & s1 & e1 & e2 & H1 & H2 & ->).
    unfold next in *. cbn [fst snd] in *. apply Forall_app in Hr. destruct Hr as [Hr1 Hr2].
    destruct (Hf _ _ _ _ _ HS H1 Hr1) as [S1 C1]. destruct (Hh a _ _ _ _ _ S1 H2 Hr2) as [S2 C2].
    split; [exact S2|]. rewrite seen_app, C1, C2. reflexivity.
  Qed.

  Lemma sim_ext : forall A (f : M (I := I) A) g h, (forall v, g v = h v) -> simulates f g -> simulates f h.
  Proof. intros A f g h H Hf s v u s' es. rewrite <- (H v). apply Hf. Qed.

  Lemma Sim_kept : forall v s s', regs (rxs s') = regs (rxs s) -> cfg (rxs s') = cfg (rxs s) -> m (app s') = m (app s) ->
    Sim v s -> Sim v s'.
  Proof.
    intros v s s' H1 H2 H3 (A & B & C & D).
    assert (logon (r_addrs (rxs s')) = logon (r_addrs (rxs s))) as El by (unfold regs in H1; congruence).
    split; [intros a; rewrite H3; apply A|]. split; [exact (active_cfg s s' _ H2 B)|]. rewrite El.
    split; [congruence|exact D].
  Qed.

  Lemma sim_idle : forall A (f : M (I := I) A), keeps regs f -> quiet m f -> emits plain f -> simulates f idle.
  Proof.
    intros A f H1 H2 H3 s v u s' es HS H _. unfold idle. cbn [fst snd].
    destruct (H2 _ _ _ _ H) as (Q1 & Q2 & _).
    split; [exact (Sim_kept v s s' (H1 _ _ _ _ H) Q1 Q2 HS)|]. apply plain_seen. exact (H3 _ _ _ _ H).
  Qed.

  Lemma sim_bind_idle : forall A B (f : M (I := I) A) (k : A -> M B) h,
    simulates f idle -> (forall a, simulates (k a) h) -> simulates (bind f k) h.
  Proof.
    intros A B f k h Hf Hh. apply (sim_ext _ _ (next idle h)); [|apply simulates_bind; assumption].
    intros v. unfold next, idle. cbn [fst snd List.app]. symmetry. apply surjective_pairing.
  Qed.
  Lemma sim_then_idle : forall A B (f : M (I := I) A) (k : A -> M B) h,
    simulates f h -> (forall a, simulates (k a) idle) -> simulates (bind f k) h.
  Proof.
    intros A B f k h Hf Hh. apply (sim_ext _ _ (next h idle)); [|apply simulates_bind; assumption].
    intros v. unfold next, idle. cbn [fst snd List.app]. rewrite app_nil_r. symmetry. apply surjective_pairing.
  Qed.

  Lemma sim_ret : forall A (a : A), simulates (ret a) idle.
  Proof. intros. apply sim_idle; [apply keeps_ret|apply quiet_ret|apply emits_ret]. Qed.
  Lemma sim_fail : forall A r g, simulates (fail (A := A) r) g.
  Proof. intros A r g s v u s' es HS H. discriminate. Qed.

  Lemma sim_locked : forall v s, Sim v s -> cvs_locked (r_conf (rxs s)) = cvs_locked (switches (v_cvs v)).
  Proof.
    intros v s (_ & (_ & _ & H) & _). apply (f_equal cvs_locked) in H. exact H.
  Qed.
  Lemma sim_mode : forall v s, Sim v s -> service_mode (r_cv (rxs s)) = v_service v.
  Proof. intros v s (_ & _ & H & _). unfold regs in H. congruence. Qed.
  Lemma sim_consist : forall v s, Sim v s -> consist (r_addrs (rxs s)) = consist_address (v_cvs v).
  Proof. intros v s (_ & (_ & H & _) & _). exact H. Qed.

  (** A callback after an access: an answer on track or an acknowledgement *)
  Lemma cb_byte_out : forall b r s u s' es, cb_byte E b r s = Ok (u, s', es) ->
    regs (rxs s') = regs (rxs s) /\ cfg (rxs s') = cfg (rxs s) /\ m (app s') = m (app s) /\
    seen_in es = if service_mode (r_cv (rxs s)) && (b =? r) then [Told EServiceAck] else [].
  Proof.
    intros b r s u s' es H.
    assert (keeps regs (cb_byte E b r)) as K by keeps_tac. pose proof (K _ _ _ _ H) as K1.
    destruct (quiet_cb_byte E m Hm b r _ _ _ _ H) as (Q1 & Q2 & _).
    split; [exact K1|]. split; [exact Q1|]. split; [exact Q2|]. clear K K1 Q1 Q2.
    unfold cb_byte in H. rewrite bind_get in H. destruct (service_mode (r_cv (rxs s))); cbn [negb andb] in *.
    - destruct (b =? r); unfold call, ret in H; [assert (es = [EServiceAck]) as -> by congruence|assert (es = []) as -> by congruence]; reflexivity.
    - assert (emits plain (@pom I r)) as Ep by (unfold pom; emits_tac). apply plain_seen. exact (Ep _ _ _ _ H).
  Qed.
  Lemma cb_bit_out : forall b r s u s' es, cb_bit E b r s = Ok (u, s', es) ->
    regs (rxs s') = regs (rxs s) /\ cfg (rxs s') = cfg (rxs s) /\ m (app s') = m (app s) /\
    seen_in es = if service_mode (r_cv (rxs s)) && Bool.eqb b r then [Told EServiceAck] else [].
  Proof.
    intros b r s u s' es H.
    assert (keeps regs (cb_bit E b r)) as K by keeps_tac. pose proof (K _ _ _ _ H) as K1.
    destruct (quiet_cb_bit E m Hm b r _ _ _ _ H) as (Q1 & Q2 & _).
    split; [exact K1|]. split; [exact Q1|]. split; [exact Q2|]. clear K K1 Q1 Q2.
    unfold cb_bit in H. rewrite bind_get in H. destruct (service_mode (r_cv (rxs s))); cbn [negb andb] in *.
    - destruct (Bool.eqb b r); unfold call, ret in H; [assert (es = [EServiceAck]) as -> by congruence|assert (es = []) as -> by congruence]; reflexivity.
    - assert (emits plain (@pom I (Z.b2z r))) as Ep by (unfold pom; emits_tac). apply plain_seen. exact (Ep _ _ _ _ H).
  Qed.

  Lemma sim_cvVerify : forall a b, simulates (cvVerify E a b) (perform (Check a b)).
  Proof.
    intros a b s v u s' es HS H _. unfold cvVerify in H. rewrite bind_get, (sim_locked v s HS) in H.
    unfold perform, permitted. cbn [is_writing andb]. rewrite orb_false_r.
    destruct (cvs_locked (switches (v_cvs v))); cbn [negb fst snd].
    { unfold ret in H. assert (s' = s) as -> by congruence. assert (es = []) as -> by congruence. auto. }
    rewrite (proj1 (mem_sync E m Hm)) in H. apply bind_inv in H. destruct H as (r & s1 & e1 & e2 & H1 & H2 & ->).
    unfold readCvByte in H1. pose proof (mem_readByte E m Hm (app s) a b) as K.
    destruct (e_readCvByte E (app s) a b) as [w i]. cbn [fst snd] in K. destruct K as [Kv Km].
    assert (r = u8 w) as -> by congruence. assert (e1 = [EReadCvByte a b (u8 w)]) as -> by congruence.
    assert (s1 = Mk_st (rxs s) i (pending s)) as -> by congruence. clear H1.
    destruct (cb_byte_out _ _ _ _ _ _ H2) as (R1 & R2 & R3 & R4). cbn [rxs app] in *.
    split.
    - destruct v. apply (Sim_kept _ s); try assumption. congruence.
    - rewrite seen_app, R4. cbn [seen_in flat_map seen_of access_of map List.app]. f_equal.
      rewrite (sim_mode v s HS), Kv. destruct HS as (HS & _). cbn [agrees after]. rewrite (HS a). reflexivity.
  Qed.
  Lemma sim_cvVerifyBit : forall a b k, 0 <= k < 8 -> simulates (cvVerifyBit E a b k) (perform (CheckBit a b k)).
  Proof.
    intros a b k Hk8 s v u s' es HS H _. unfold cvVerifyBit in H. rewrite bind_get, (sim_locked v s HS) in H.
    unfold perform, permitted. cbn [is_writing andb]. rewrite orb_false_r.
    destruct (cvs_locked (switches (v_cvs v))); cbn [negb fst snd].
    { unfold ret in H. assert (s' = s) as -> by congruence. assert (es = []) as -> by congruence. auto. }
    rewrite (proj1 (mem_sync E m Hm)) in H. apply bind_inv in H. destruct H as (r & s1 & e1 & e2 & H1 & H2 & ->).
    unfold readCvBit in H1. pose proof (mem_readBit E m Hm (app s) a b k Hk8) as K.
    destruct (e_readCvBit E (app s) a b k) as [w i]. cbn [fst snd] in K. destruct K as [Kv Km].
    assert (r = w) as -> by congruence. assert (e1 = [EReadCvBit a b k w]) as -> by congruence.
    assert (s1 = Mk_st (rxs s) i (pending s)) as -> by congruence. clear H1.
    destruct (cb_bit_out _ _ _ _ _ _ H2) as (R1 & R2 & R3 & R4). cbn [rxs app] in *.
    split.
    - destruct v. apply (Sim_kept _ s); try assumption. congruence.
    - rewrite seen_app, R4. cbn [seen_in flat_map seen_of access_of map List.app]. f_equal.
      rewrite (sim_mode v s HS), Kv. destruct HS as (HS & _). cbn [agrees after]. rewrite (HS a). reflexivity.
  Qed.

  Lemma plain_config : forall c hc, seen_in (config_calls c hc) = [].
  Proof. intros c hc. unfold config_calls. destruct (bit_of (cv c 29) 5), hc; reflexivity. Qed.

  Lemma reinit_out : forall a s u s' es, reinit E a s = Ok (u, s', es) -> m (app s') = m (app s) /\ seen_in es = [].
  Proof.
    intros a s u s' es H. unfold reinit, when in H. destruct (existsb (Z.eqb a) init_cvs).
    - destruct (init_memory E m s Hm) as [[_ Hu]|(_ & t & Ht & _ & _ & Hmt)]; [congruence|].
      assert (s' = t) as -> by congruence. assert (es = config_calls (m (app s)) (e_high_current E)) as -> by congruence.
      split; [exact Hmt|apply plain_config].
    - unfold ret in H. assert (s' = s) as -> by congruence. assert (es = []) as -> by congruence. auto.
  Qed.

  Lemma active_pointwise : forall s c d, (forall a, c a = d a) -> active c s -> active d s.
  Proof. intros s c d H. apply active_ext. intros a _. apply H. Qed.

  Lemma Sim_written : forall v s s' c, Sim v s -> regs (rxs s') = regs (rxs s) ->
    (active (m (app s)) s -> active (m (app s')) s') -> (forall a, m (app s') a = c a) -> Sim (with_cvs c v) s'.
  Proof.
    intros v s s' c (A & B & C & D) H1 H2 H3.
    assert (logon (r_addrs (rxs s')) = logon (r_addrs (rxs s))) as El by (unfold regs in H1; congruence).
    split; [exact H3|]. split.
    - apply (active_pointwise s' _ _ H3), H2. apply (active_pointwise s (v_cvs v)); [intros; symmetry; apply A|exact B].
    - cbn [with_cvs v_service v_page v_last v_times]. rewrite El. split; [congruence|exact D].
  Qed.

  Lemma sim_cvWrite : forall a b, byte b -> simulates (cvWrite E a b) (perform (Store a b)).
  Proof.
    intros a b Hb s v u s' es HS H Hr. pose proof H as H0.
    assert (keeps regs (cvWrite E a b)) as Kr by keeps_tac. pose proof (Kr _ _ _ _ H0) as Hregs. clear Kr.
    pose proof (proj1 (sound_cvWrite E m Hm a b _ _ _ _ H0)) as Hact. clear H0.
    unfold cvWrite in H. rewrite bind_get, (sim_locked v s HS) in H.
    assert (Hp : permitted (cvs_locked (switches (v_cvs v))) (Store a b) =
                 negb (cvs_locked (switches (v_cvs v)) && negb (a =? 14))).
    { unfold permitted. cbn [is_writing target andb]. rewrite negb_andb, negb_involutive. reflexivity. }
    unfold perform in *. rewrite Hp in *. clear Hp.
    destruct (cvs_locked (switches (v_cvs v)) && negb (a =? 14)); cbn [negb fst snd] in *.
    { unfold ret in H. assert (s' = s) as -> by congruence. assert (es = []) as -> by congruence. auto. }
    inversion Hr as [|? ? Hra _]; subst. cbn [allowed is_writing] in Hra. specialize (Hra eq_refl).
    rewrite (proj2 (mem_sync E m Hm)) in H. apply bind_inv in H. destruct H as (u1 & s2 & e1 & e2 & H1 & H2 & ->).
    apply bind_inv in H1. destruct H1 as (r & s1 & e3 & e4 & H1 & H3 & ->).
    unfold writeCv in H1. pose proof (mem_write E m Hm (app s) a b) as K.
    pose proof (proj1 (proj2 Hk) (app s) a b Hra Hb) as Kw.
    destruct (e_writeCv E (app s) a b) as [w i]. cbn [fst snd] in K, Kw. destruct K as [Kv Km].
    assert (r = u8 w) as -> by congruence. assert (e3 = [EWriteCv a b (u8 w)]) as -> by congruence.
    assert (s1 = Mk_st (rxs s) i (pending s)) as -> by congruence. clear H1.
    destruct (cb_byte_out _ _ _ _ _ _ H3) as (_ & _ & R3 & R4). cbn [rxs app] in *.
    destruct (reinit_out _ _ _ _ _ H2) as [R5 R6].
    split.
    - apply (Sim_written v s); try assumption. intros x. rewrite R5, R3. cbn [after]. unfold set_cv.
      destruct (Z.eqb_spec x a) as [->|Hx]; [exact Kw|]. rewrite (Km x Hx). destruct HS as (HS & _). apply HS.
    - rewrite !seen_app, R4, R6, app_nil_r. cbn [seen_in flat_map seen_of access_of map List.app]. f_equal.
      rewrite (sim_mode v s HS), Kv, Kw. cbn [agrees after]. unfold set_cv. rewrite (Z.eqb_refl a). reflexivity.
  Qed.

  Lemma sim_cvWriteBit : forall a b k, 0 <= k < 8 -> simulates (cvWriteBit E a b k) (perform (StoreBit a b k)).
  Proof.
    intros a b k Hk8 s v u s' es HS H Hr. pose proof H as H0.
    assert (keeps regs (cvWriteBit E a b k)) as Kr by keeps_tac. pose proof (Kr _ _ _ _ H0) as Hregs. clear Kr.
    pose proof (proj1 (sound_cvWriteBit E m Hm a b k Hk8 _ _ _ _ H0)) as Hact. clear H0.
    unfold cvWriteBit in H. rewrite bind_get, (sim_locked v s HS) in H.
    assert (Hp : permitted (cvs_locked (switches (v_cvs v))) (StoreBit a b k) =
                 negb (cvs_locked (switches (v_cvs v)) && negb (a =? 14))).
    { unfold permitted. cbn [is_writing target andb]. rewrite negb_andb, negb_involutive. reflexivity. }
    unfold perform in *. rewrite Hp in *. clear Hp.
    destruct (cvs_locked (switches (v_cvs v)) && negb (a =? 14)); cbn [negb fst snd] in *.
    { unfold ret in H. assert (s' = s) as -> by congruence. assert (es = []) as -> by congruence. auto. }
    inversion Hr as [|? ? Hra _]; subst. cbn [allowed is_writing] in Hra. specialize (Hra eq_refl).
    rewrite (proj2 (mem_sync E m Hm)) in H. apply bind_inv in H. destruct H as (u1 & s2 & e1 & e2 & H1 & H2 & ->).
    apply bind_inv in H1. destruct H1 as (r & s1 & e3 & e4 & H1 & H3 & ->).
    unfold writeCvBit in H1. pose proof (mem_writeBit E m Hm (app s) a b k Hk8) as K.
    pose proof (proj2 (proj2 Hk) (app s) a b k Hra Hk8) as Kw.
    destruct (e_writeCvBit E (app s) a b k) as [w i]. cbn [fst snd] in K, Kw. destruct K as [Kv Km].
    assert (r = w) as -> by congruence. assert (e3 = [EWriteCvBit a b k w]) as -> by congruence.
    assert (s1 = Mk_st (rxs s) i (pending s)) as -> by congruence. clear H1.
    destruct (cb_bit_out _ _ _ _ _ _ H3) as (_ & _ & R3 & R4). cbn [rxs app] in *.
    destruct (reinit_out _ _ _ _ _ H2) as [R5 R6].
    assert (forall x, m (app s') x = after (StoreBit a b k) (v_cvs v) x) as Hx.
    { intros x. rewrite R5, R3. cbn [after]. unfold set_cv.
      destruct HS as (HS & _). destruct (Z.eqb_spec x a) as [->|Hx]; [rewrite Kw, HS; reflexivity|]. rewrite (Km x Hx). apply HS. }
    split.
    - apply (Sim_written v s); assumption.
    - rewrite !seen_app, R4, R6, app_nil_r. cbn [seen_in flat_map seen_of access_of map List.app]. f_equal.
      rewrite (sim_mode v s HS), Kv. cbn [agrees]. rewrite <- (Hx a), R5, R3. reflexivity.
  Qed.
End Sim.
