(** The answer that waits for channel 2, along the simulation of LayoutProofs.v: accesses
    to CVs *)
From Verif Require Import Prelude Address Instruction Datagram ZBits SpecCodec RxState Rx CodecProofs CodecProofs2 RxLogic SpecRx RxBitProofs
  SpecExec ExecProofs SpecConf ConfProofs ConfProofs2 SpecCv CvProofs CvProofs2 CvProofs3 CvProofs5 CvProofs7 SpecBidi SpecLayout
  LayoutProofs LayoutProofs2 SpecDialog.

(** The answer depends only on the CVs and the mode *)
Lemma answer_ext : forall xs v v' w, v_cvs v = v_cvs v' -> v_service v = v_service v' -> answer xs v w = answer xs v' w.
Proof.
  induction xs as [|[e|x] xs IH]; intros v v' w H1 H2; cbn [answer]; [reflexivity|apply IH; assumption|].
  rewrite H1, H2. apply IH; [reflexivity|exact H2].
Qed.
(** The CVs after the accesses among [xs] *)
Fixpoint cvs_after (xs : list seen) (c : Z -> Z) : Z -> Z :=
  match xs with
  | [] => c
  | Told _ :: r => cvs_after r c
  | Access x :: r => cvs_after r (after x c)
  end.
Lemma answer_app : forall xs ys v w, answer (xs ++ ys) v w = answer ys (with_cvs (cvs_after xs (v_cvs v)) v) (answer xs v w).
Proof.
  induction xs as [|[e|x] xs IH]; intros ys v w; cbn [List.app answer cvs_after].
  - apply answer_ext; reflexivity.
  - apply IH.
  - rewrite IH. apply answer_ext; reflexivity.
Qed.
(** [g] changes CVs only by accesses that are seen, and not the mode *)
Definition honest (g : view -> view * list seen) : Prop := forall v,
  v_cvs (fst (g v)) = cvs_after (snd (g v)) (v_cvs v) /\ v_service (fst (g v)) = v_service v.
Lemma honest_perform : forall x, honest (perform x).
Proof.
  intros x v. unfold perform. destruct (permitted _ x); [|auto]. cbn [fst snd cvs_after with_cvs v_cvs v_service].
  split; [|reflexivity]. destruct (v_service v && _); reflexivity.
Qed.
Lemma answer_next : forall g h v w, honest g -> answer (snd (next g h v)) v w = answer (snd (h (fst (g v)))) (fst (g v)) (answer (snd (g v)) v w).
Proof.
  intros g h v w Hg. destruct (Hg v) as [H1 H2]. unfold next. cbn [snd]. rewrite answer_app. apply answer_ext; cbn [with_cvs v_cvs v_service]; congruence.
Qed.

Section Wait.
  Context {I : Type} (E : Env I) (m : I -> Z -> Z) (able : access -> Prop) (Hk : keeps_cvs able E m).
  Implicit Types s : st I.
  Let Hm : cv_memory E m := proj1 Hk.
  Notation Sim := (Sim m).
  Notation simulates := (simulates m able).

  (** What waits, and no address was handed out by logon *)
  Definition wait (r : rx) := (pom_deque (r_bidi r), logon_assigned (r_logon r)).
  Definition W (w : option Z) s : Prop :=
    logon_assigned (r_logon (rxs s)) = false /\
    match w with
    | None => pom_deque (r_bidi (rxs s)) = []
    | Some r => byte r /\ exists d, pom_deque (r_bidi (rxs s)) = [d] /\ carries 2 r d
    end.

  Lemma W_kept : forall w s s', wait (rxs s') = wait (rxs s) -> W w s -> W w s'.
  Proof.
    intros w s s' H [A B]. unfold wait in H. injection H as H1 H2. split; [congruence|]. destruct w; rewrite H1; exact B.
  Qed.

  Definition replies {A} (f : M (I := I) A) (g : view -> view * list seen) : Prop :=
    forall s v w u s' es, Sim v s -> W w s -> f s = Ok (u, s', es) -> Forall (allowed able) (snd (g v)) ->
    W (answer (snd (g v)) v w) s'.

  Lemma replies_bind : forall A B (f : M (I := I) A) (k : A -> M B) g h, honest g ->
    simulates f g -> replies f g -> (forall a, replies (k a) h) -> replies (bind f k) (next g h).
  Proof.
    intros A B f k g h Hg Hs Hf Hh s v w u s' es HS HW H Hr. apply bind_inv in H. destruct H as (a & s1 & e1 & e2 & H1 & H2 & ->).
    rewrite (answer_next g h v w Hg). unfold next in Hr. cbn [fst snd] in Hr. apply Forall_app in Hr. destruct Hr as [Hr1 Hr2].
    destruct (Hs _ _ _ _ _ HS H1 Hr1) as [S1 _]. exact (Hh a _ _ _ _ _ _ S1 (Hf _ _ _ _ _ _ HS HW H1 Hr1) H2 Hr2).
  Qed.
  Lemma replies_ext : forall A (f : M (I := I) A) g h, (forall v, g v = h v) -> replies f g -> replies f h.
  Proof. intros A f g h H Hf s v w u s' es. rewrite <- (H v). apply Hf. Qed.

  Lemma sim_channel : forall v s, Sim v s -> ch2_data_enabled (r_conf (rxs s)) = data_channel (v_cvs v).
  Proof. intros v s (_ & (_ & _ & H) & _). apply (f_equal ch2_data_enabled) in H. exact H. Qed.

  Lemma wait_reinit : forall a, keeps wait (reinit E a).
  Proof. intros a. keeps_tac. Qed.

  (** Callbacks *)
  Lemma replies_pom : forall r w s u s' es, byte r -> W w s -> pom r s = Ok (u, s', es) ->
    W (if ch2_data_enabled (r_conf (rxs s)) then Some r else w) s'.
  Proof.
    intros r w s u s' es Hr [A B] H. unfold pom in H. rewrite bind_get in H.
    destruct (ch2_data_enabled (r_conf (rxs s))); cbn [negb] in H.
    - destruct (make12_coded r Hr) as (d & H1 & H2). rewrite H1, bind_lift in H. unfold modify in H.
      match type of H with Ok (_, ?x, _) = _ => assert (s' = x) as -> by congruence end.
      split; [exact A|]. split; [exact Hr|]. exists d. split; [reflexivity|exact H2].
    - unfold ret in H. assert (s' = s) as -> by congruence. split; assumption.
  Qed.
  Lemma replies_byte : forall b r w s u s' es, byte r -> W w s -> cb_byte E b r s = Ok (u, s', es) ->
    W (if negb (service_mode (r_cv (rxs s))) && ch2_data_enabled (r_conf (rxs s)) then Some r else w) s'.
  Proof.
    intros b r w s u s' es Hr HW H. unfold cb_byte in H. rewrite bind_get in H. destruct (service_mode (r_cv (rxs s))); cbn [negb andb] in *.
    - apply (W_kept w s); [|exact HW]. destruct (b =? r); unfold call, ret in H;
        match type of H with Ok (_, ?x, _) = _ => assert (s' = x) as -> by congruence end; reflexivity.
    - exact (replies_pom r w s u s' es Hr HW H).
  Qed.
  Lemma byte_b2z : forall b, byte (Z.b2z b). Proof. intros []; unfold byte; cbn; lia. Qed.
  Lemma replies_bit : forall b r w s u s' es, W w s -> cb_bit E b r s = Ok (u, s', es) ->
    W (if negb (service_mode (r_cv (rxs s))) && ch2_data_enabled (r_conf (rxs s)) then Some (Z.b2z r) else w) s'.
  Proof.
    intros b r w s u s' es HW H. unfold cb_bit in H. rewrite bind_get in H. destruct (service_mode (r_cv (rxs s))); cbn [negb andb] in *.
    - apply (W_kept w s); [|exact HW]. destruct (Bool.eqb b r); unfold call, ret in H;
        match type of H with Ok (_, ?x, _) = _ => assert (s' = x) as -> by congruence end; reflexivity.
    - exact (replies_pom _ w s u s' es (byte_b2z r) HW H).
  Qed.

  Lemma answer_told : forall (b : bool) v w, answer (if b then [Told EServiceAck] else []) v w = w.
  Proof. intros [] v w; reflexivity. Qed.

  Lemma replies_cvVerify : forall a b, replies (cvVerify E a b) (perform (Check a b)).
  Proof.
    intros a b s v w u s' es HS HW H _. unfold cvVerify in H. rewrite bind_get, (sim_locked m v s HS) in H.
    unfold perform, permitted. cbn [is_writing andb]. rewrite orb_false_r.
    destruct (cvs_locked (switches (v_cvs v))); cbn [negb fst snd].
    { unfold ret in H. assert (s' = s) as -> by congruence. exact HW. }
    rewrite (proj1 (mem_sync E m Hm)) in H. apply bind_inv in H. destruct H as (r & s1 & e1 & e2 & H1 & H2 & _).
    unfold readCvByte in H1. pose proof (mem_readByte E m Hm (app s) a b) as K. pose proof (mem_byte E m Hm (app s) a) as Kb.
    destruct (e_readCvByte E (app s) a b) as [x i]. cbn [fst snd] in K. destruct K as [Kv Km].
    assert (r = u8 x) as -> by congruence.
    assert (s1 = Mk_st (rxs s) i (pending s)) as -> by congruence. clear H1.
    cbn [answer after content]. rewrite answer_told. rewrite <- Kv in Kb. rewrite (proj1 HS a) in Kv.
    pose proof (replies_byte _ _ w _ _ _ _ Kb (W_kept w s (Mk_st (rxs s) i (pending s)) eq_refl HW) H2) as X.
    cbn [rxs] in X. rewrite (sim_mode m v s HS), (sim_channel v s HS), Kv in X. exact X.
  Qed.
  Lemma replies_cvVerifyBit : forall a b k, 0 <= k < 8 -> replies (cvVerifyBit E a b k) (perform (CheckBit a b k)).
  Proof.
    intros a b k Hk8 s v w u s' es HS HW H _. unfold cvVerifyBit in H. rewrite bind_get, (sim_locked m v s HS) in H.
    unfold perform, permitted. cbn [is_writing andb]. rewrite orb_false_r.
    destruct (cvs_locked (switches (v_cvs v))); cbn [negb fst snd].
    { unfold ret in H. assert (s' = s) as -> by congruence. exact HW. }
    rewrite (proj1 (mem_sync E m Hm)) in H. apply bind_inv in H. destruct H as (r & s1 & e1 & e2 & H1 & H2 & _).
    unfold readCvBit in H1. pose proof (mem_readBit E m Hm (app s) a b k Hk8) as K.
    destruct (e_readCvBit E (app s) a b k) as [x i]. cbn [fst snd] in K. destruct K as [Kv Km].
    assert (r = x) as -> by congruence.
    assert (s1 = Mk_st (rxs s) i (pending s)) as -> by congruence. clear H1.
    cbn [answer after content]. rewrite answer_told. rewrite (proj1 HS a) in Kv.
    pose proof (replies_bit _ _ w _ _ _ _ (W_kept w s (Mk_st (rxs s) i (pending s)) eq_refl HW) H2) as X.
    cbn [rxs] in X. rewrite (sim_mode m v s HS), (sim_channel v s HS), Kv in X. exact X.
  Qed.

  Lemma replies_cvWrite : forall a b, byte b -> replies (cvWrite E a b) (perform (Store a b)).
  Proof.
    intros a b Hb s v w u s' es HS HW H Hr. unfold cvWrite in H. rewrite bind_get, (sim_locked m v s HS) in H.
    assert (Hp : permitted (cvs_locked (switches (v_cvs v))) (Store a b) =
                 negb (cvs_locked (switches (v_cvs v)) && negb (a =? 14))).
    { unfold permitted. cbn [is_writing target andb]. rewrite negb_andb, negb_involutive. reflexivity. }
    unfold perform in *. rewrite Hp in *. clear Hp.
    destruct (cvs_locked (switches (v_cvs v)) && negb (a =? 14)); cbn [negb fst snd] in *.
    { unfold ret in H. assert (s' = s) as -> by congruence. exact HW. }
    inversion Hr as [|? ? Hra _]; subst. cbn [allowed is_writing] in Hra. specialize (Hra eq_refl).
    rewrite (proj2 (mem_sync E m Hm)) in H. apply bind_inv in H. destruct H as (u1 & s2 & e1 & e2 & H1 & H2 & ->).
    apply bind_inv in H1. destruct H1 as (r & s1 & e3 & e4 & H1 & H3 & ->).
    unfold writeCv in H1. pose proof (mem_write E m Hm (app s) a b) as K.
    pose proof (proj1 (proj2 Hk) (app s) a b Hra Hb) as Kw.
    destruct (e_writeCv E (app s) a b) as [x i]. cbn [fst snd] in K, Kw. destruct K as [Kv Km].
    assert (r = u8 x) as -> by congruence. assert (s1 = Mk_st (rxs s) i (pending s)) as -> by congruence. clear H1.
    cbn [answer after content]. rewrite answer_told. rewrite Kw in Kv. rewrite Kv in H3.
    pose proof (replies_byte _ _ w _ _ _ _ Hb (W_kept w s (Mk_st (rxs s) i (pending s)) eq_refl HW) H3) as X.
    cbn [rxs] in X. rewrite (sim_mode m v s HS), (sim_channel v s HS) in X.
    unfold set_cv. rewrite Z.eqb_refl. exact (W_kept _ _ _ (wait_reinit a _ _ _ _ H2) X).
  Qed.
  Lemma replies_cvWriteBit : forall a b k, 0 <= k < 8 -> replies (cvWriteBit E a b k) (perform (StoreBit a b k)).
  Proof.
    intros a b k Hk8 s v w u s' es HS HW H Hr. unfold cvWriteBit in H. rewrite bind_get, (sim_locked m v s HS) in H.
    assert (Hp : permitted (cvs_locked (switches (v_cvs v))) (StoreBit a b k) =
                 negb (cvs_locked (switches (v_cvs v)) && negb (a =? 14))).
    { unfold permitted. cbn [is_writing target andb]. rewrite negb_andb, negb_involutive. reflexivity. }
    unfold perform in *. rewrite Hp in *. clear Hp.
    destruct (cvs_locked (switches (v_cvs v)) && negb (a =? 14)); cbn [negb fst snd] in *.
    { unfold ret in H. assert (s' = s) as -> by congruence. exact HW. }
    inversion Hr as [|? ? Hra _]; subst. cbn [allowed is_writing] in Hra. specialize (Hra eq_refl).
    rewrite (proj2 (mem_sync E m Hm)) in H. apply bind_inv in H. destruct H as (u1 & s2 & e1 & e2 & H1 & H2 & ->).
    apply bind_inv in H1. destruct H1 as (r & s1 & e3 & e4 & H1 & H3 & ->).
    unfold writeCvBit in H1. pose proof (mem_writeBit E m Hm (app s) a b k Hk8) as K.
    pose proof (proj2 (proj2 Hk) (app s) a b k Hra Hk8) as Kw.
    destruct (e_writeCvBit E (app s) a b k) as [x i]. cbn [fst snd] in K, Kw. destruct K as [Kv Km].
    assert (r = x) as -> by congruence. assert (s1 = Mk_st (rxs s) i (pending s)) as -> by congruence. clear H1.
    cbn [answer after content]. rewrite answer_told. rewrite Kw, (proj1 HS a) in Kv. rewrite Kv in H3.
    pose proof (replies_bit _ _ w _ _ _ _ (W_kept w s (Mk_st (rxs s) i (pending s)) eq_refl HW) H3) as X.
    cbn [rxs] in X. rewrite (sim_mode m v s HS), (sim_channel v s HS) in X.
    unfold set_cv. rewrite Z.eqb_refl. exact (W_kept _ _ _ (wait_reinit a _ _ _ _ H2) X).
  Qed.

  (** Counting *)
  Definition kept_for (p : list Z) (v : view) (w : option Z) : option Z := if list_eq_dec Z.eq_dec p (v_last v) then w else None.
  Lemma replies_count : forall v w s p q s2, r_deque (rxs s) = p :: q -> Sim v s -> W w s ->
    countOwnEqualCvPackets s = Ok (tt, s2, []) -> W (kept_for p v w) s2.
  Proof.
    intros v w s p q s2 Hd (_ & _ & C & _) [A B] H.
    assert (keeps (fun r => logon_assigned (r_logon r)) (@countOwnEqualCvPackets I)) as K by keeps_tac.
    pose proof (K _ _ _ _ H) as Kl. cbn beta in Kl. split; [congruence|].
    destruct (count_spec s p q Hd) as (s3 & k & Hc & _ & _ & _ & _ & _ & _ & _ & Ha).
    assert (s3 = s2) as -> by congruence. unfold answer_queue, last_cv_packet in Ha.
    assert (last_own_cv_packet (r_cv (rxs s)) = v_last v) as El by (unfold regs in C; congruence). rewrite El in Ha.
    unfold kept_for. destruct (list_eq_dec Z.eq_dec p (v_last v)) as [e|e].
    - rewrite e, (proj2 (list_eqb_eq _ _) eq_refl) in Ha. destruct w; rewrite Ha; exact B.
    - destruct (list_eqb (v_last v) p) eqn:Eq; [apply list_eqb_eq in Eq; congruence|exact Ha].
  Qed.

  Lemma done_wait : forall w s u s' es, W w s -> ret tt s = Ok (u, s', es) -> W w s'.
  Proof. intros w s u s' es HW H. unfold ret in H. assert (s' = s) as -> by congruence. exact HW. Qed.

  (** Long form *)
  Lemma replies_cvLong : forall n b0 t p q s v w u s' es, r_deque (rxs s) = p :: q -> Forall byte (b0 :: t) ->
    negb (n =? 0) && (n =? aval (consist_address (v_cvs v))) = false ->
    Sim v s -> W w s -> cvLong E n (b0 :: t) s = Ok (u, s', es) ->
    let v1 := count p v in
    let g := perform_all (if v_service v && negb (v_times v1 =? 2)%nat then []
                          else flat_map (due (v_times v1)) (request b0 (nth 0 t 0) (nth 1 t 0))) in
    Forall (allowed able) (snd (g v1)) -> W (answer (snd (g v1)) v1 (kept_for p v w)) s'.
  Proof.
    intros n b0 t p q s v w u s' es Hd Hb Hc HS HW H v1 g Hr. unfold cvLong in H. rewrite bind_get in H.
    rewrite (sim_consist m v s HS), Hc in H.
    destruct (sim_count m v s p q Hd HS) as (s2 & Hcount & HS2).
    pose proof (replies_count v w s p q s2 Hd HS HW Hcount) as HW2.
    apply (bind_out _ _ _ _ _ _ _ _ _ _ Hcount) in H. cbn beta in H. rewrite bind_get in H. cbv zeta in H.
    fold v1 in HS2. rewrite (sim_times m _ _ HS2), (sim_mode m _ _ HS2) in H.
    change (v_service v1) with (v_service v) in H. subst g.
    destruct (v_service v && negb (v_times v1 =? 2)%nat); [exact (done_wait _ _ _ _ _ HW2 H)|].
    inversion Hb as [|? ? H0 Hb1]; subst.
    cbn [at_ nth_error] in H. rewrite bind_ret in H.
    destruct t as [|b1 t]; [discriminate H|]. inversion Hb1 as [|? ? H1 Hb2]; subst. cbn [at_ nth_error] in H. rewrite bind_ret in H.
    cbn [nth] in Hr |- *.
    destruct t as [|b2 t].
    - assert (byte 0) as Hz by (unfold byte; lia). cbn [nth] in Hr |- *. rewrite (request_spec b0 b1 0 H0 H1 Hz) in Hr |- *. cbv zeta in Hr, H |- *.
      cbn [nth] in Hr |- *. clear Hr.
      destruct (Z.land (Z.shiftr b0 2) 3 =? 0); [exact (done_wait _ _ _ _ _ HW2 H)|].
      destruct (Z.land (Z.shiftr b0 2) 3 =? 1); [discriminate H|].
      destruct (Z.land (Z.shiftr b0 2) 3 =? 3); [|discriminate H].
      cbn [flat_map]. destruct (v_times v1) as [|[|[|k]]]; cbn [Nat.ltb Nat.leb Nat.eqb due List.app] in *;
        try discriminate H; exact (done_wait _ _ _ _ _ HW2 H).
    - inversion Hb2 as [|? ? H2 _]; subst. cbn [at_ nth_error nth] in H, Hr |- *.
      rewrite (request_spec b0 b1 b2 H0 H1 H2) in Hr |- *. cbv zeta in Hr, H |- *.
      set (a := Z.lor (Z.shiftl (Z.land b0 3) 8) b1) in *.
      destruct (Z.land (Z.shiftr b0 2) 3 =? 0); [exact (done_wait _ _ _ _ _ HW2 H)|].
      destruct (Z.land (Z.shiftr b0 2) 3 =? 1).
      { rewrite bind_ret in H.
        assert (flat_map (due (v_times v1)) [Check a b2] = [Check a b2]) as Ed by (destruct (v_times v1) as [|[|[|k]]]; reflexivity).
        rewrite Ed, one_all in Hr |- *. exact (replies_cvVerify a b2 _ _ _ _ _ _ HS2 HW2 H Hr). }
      destruct (Z.land (Z.shiftr b0 2) 3 =? 3).
      { destruct (v_times v1) as [|[|[|k]]]; cbn [Nat.ltb Nat.leb Nat.eqb flat_map due List.app] in *; rewrite ?bind_ret in H;
          try exact (done_wait _ _ _ _ _ HW2 H); rewrite one_all in Hr |- *.
        - exact (replies_cvWrite a b2 H2 _ _ _ _ _ _ HS2 HW2 H Hr).
        - exact (replies_cvVerify a b2 _ _ _ _ _ _ HS2 HW2 H Hr). }
      rewrite bind_ret in H. destruct (Z.testbit b2 4); cbn [negb] in H.
      + destruct (v_times v1) as [|[|[|k]]]; cbn [Nat.eqb flat_map due List.app] in *;
          try exact (done_wait _ _ _ _ _ HW2 H). rewrite one_all in Hr |- *.
        exact (replies_cvWriteBit a _ _ (land7 b2) _ _ _ _ _ _ HS2 HW2 H Hr).
      + assert (flat_map (due (v_times v1)) [CheckBit a (Z.testbit b2 3) (Z.land b2 7)] = [CheckBit a (Z.testbit b2 3) (Z.land b2 7)])
          as Ed by (destruct (v_times v1) as [|[|[|k]]]; reflexivity).
        rewrite Ed, one_all in Hr |- *. exact (replies_cvVerifyBit a _ _ (land7 b2) _ _ _ _ _ _ HS2 HW2 H Hr).
  Qed.

  Lemma replies_ret_bind : forall A B (a : A) (k : A -> M (I := I) B) g, replies (k a) g -> replies (bind (ret a) k) g.
  Proof. intros A B a k g H s v w u s' es HS HW K. rewrite bind_ret in K. exact (H _ _ _ _ _ _ HS HW K). Qed.

  (** Short form *)
  Lemma replies_cvShort : forall n b0 t p q s v w u s' es, r_deque (rxs s) = p :: q -> Forall byte (b0 :: t) ->
    negb (n =? 0) && (n =? aval (consist_address (v_cvs v))) = false ->
    Sim v s -> W w s -> cvShort E n (b0 :: t) s = Ok (u, s', es) ->
    let v1 := count p v in
    let g := perform_all (short_request (v_times v1) b0 (nth 0 t 0) (nth 1 t 0)) in
    Forall (allowed able) (snd (g v1)) -> W (answer (snd (g v1)) v1 (kept_for p v w)) s'.
  Proof.
    intros n b0 t p q s v w u s' es Hd Hb Hc HS HW H v1 g Hr. unfold cvShort in H. rewrite bind_get in H.
    rewrite (sim_consist m v s HS), Hc in H.
    destruct (sim_count m v s p q Hd HS) as (s2 & Hcount & HS2).
    pose proof (replies_count v w s p q s2 Hd HS HW Hcount) as HW2.
    apply (bind_out _ _ _ _ _ _ _ _ _ _ Hcount) in H. cbn beta in H. rewrite bind_get in H. cbv zeta in H.
    fold v1 in HS2. rewrite (sim_times m _ _ HS2) in H. subst g.
    inversion Hb as [|? ? H0 Hb1]; subst.
    cbn [at_ nth_error] in H. rewrite bind_ret in H.
    assert (byte (nth 0 t 0)) as H1 by (destruct t as [|x t]; [unfold byte; cbn; lia|inversion Hb1; assumption]).
    rewrite (short_spec _ b0 _ (nth 1 t 0) H0 H1) in Hr |- *. cbv zeta in Hr |- *.
    destruct (Z.land b0 15 =? 2).
    { destruct t as [|b1 t]; [discriminate H|]. cbn [at_ nth nth_error] in *. rewrite bind_ret in H.
      rewrite one_all in Hr |- *. exact (replies_cvWrite _ _ H1 _ _ _ _ _ _ HS2 HW2 H Hr). }
    destruct (Z.land b0 15 =? 3).
    { destruct t as [|b1 t]; [discriminate H|]. cbn [at_ nth nth_error] in *. rewrite bind_ret in H.
      rewrite one_all in Hr |- *. exact (replies_cvWrite _ _ H1 _ _ _ _ _ _ HS2 HW2 H Hr). }
    destruct (Z.land b0 15 =? 4).
    { destruct (negb (v_times v1 =? 2)%nat); [exact (done_wait _ _ _ _ _ HW2 H)|].
      destruct t as [|b1 t]; [discriminate H|]. cbn [at_ nth nth_error] in *. rewrite bind_ret in H.
      destruct t as [|b2 t].
      { apply bind_inv in H. destruct H as (? & ? & ? & ? & _ & H & _). discriminate H. }
      inversion Hb1 as [|? ? _ Hb2]; subst. inversion Hb2 as [|? ? H2 _]; subst. cbn [at_ nth nth_error] in *.
      assert (K : replies (bind (cvWrite E 16 (u8 (Z.lor 0xC0 b1))) (fun _ => bind (ret b2) (fun b => bind (cvWrite E 17 b) (fun _ => cvWriteBit E 28 true 5))))
                    (perform_all [Store 16 (u8 (Z.lor 192 b1)); Store 17 b2; StoreBit 28 true 5])).
      { eapply replies_ext; [intros x; symmetry; apply next_all|].
        apply replies_bind; [apply honest_perform|apply (sim_cvWrite E m able Hk), u8_byte|apply replies_cvWrite, u8_byte|intros _].
        apply replies_ret_bind. eapply replies_ext; [intros x; symmetry; apply next_all|].
        apply replies_bind; [apply honest_perform|apply (sim_cvWrite E m able Hk); exact H2|apply replies_cvWrite; exact H2|intros _].
        eapply replies_ext; [intros x; symmetry; apply one_all|]. apply replies_cvWriteBit. lia. }
      exact (K _ _ _ _ _ _ HS2 HW2 H Hr). }
    destruct (Z.land b0 15 =? 5); [|exact (done_wait _ _ _ _ _ HW2 H)].
    destruct (negb (v_times v1 =? 2)%nat); [exact (done_wait _ _ _ _ _ HW2 H)|].
    destruct t as [|b1 t]; [discriminate H|]. cbn [at_ nth nth_error] in *. rewrite bind_ret in H.
    destruct t as [|b2 t].
    { apply bind_inv in H. destruct H as (? & ? & ? & ? & _ & H & _). discriminate H. }
    inversion Hb1 as [|? ? _ Hb2]; subst. inversion Hb2 as [|? ? H2 _]; subst. cbn [at_ nth nth_error] in *.
    assert (K : replies (bind (cvWrite E 30 b1) (fun _ => bind (ret b2) (fun b => cvWrite E 31 b)))
                  (perform_all [Store 30 b1; Store 31 b2])).
    { eapply replies_ext; [intros x; symmetry; apply next_all|].
      apply replies_bind; [apply honest_perform|apply (sim_cvWrite E m able Hk); exact H1|apply replies_cvWrite; exact H1|intros _].
      apply replies_ret_bind. eapply replies_ext; [intros x; symmetry; apply one_all|]. apply replies_cvWrite. exact H2. }
    exact (K _ _ _ _ _ _ HS2 HW2 H Hr).
  Qed.
End Wait.
