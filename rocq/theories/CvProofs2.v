(** CV access by packets: executed packets *)
From Verif Require Import Prelude Address Instruction Datagram ZBits SpecCodec RxState Rx CodecProofs CodecProofs2 RxLogic SpecRx RxBitProofs
  RxBitProofs3 RxBitProofs4 SpecExec ExecProofs SpecConf ConfProofs ConfProofs2 SpecCv CvProofs.

Lemma land_F0 : forall b, byte b -> Z.land b 0xF0 = 16 * (b / 16).
Proof.
  intros b Hb. apply Z.eqb_eq.
  exact (sweep8 (fun b => Z.land b 0xF0 =? 16 * (b / 16)) ltac:(vm_compute; reflexivity) b Hb).
Qed.

Section Reached.
  Context {I : Type} (E : Env I).
  Implicit Types s : st I.

  Definition sane (p : list Z) : Prop := Forall byte p /\ (3 <= length p)%nat.

  Lemma reached_step : forall s o b s' es, reached E s -> step E o s = Ok (b, s', es) -> reached E s'.
  Proof.
    intros s o b s' es (i & os & es0 & H) Hs. exists i, (os ++ [o]), (es0 ++ es ++ []).
    apply (run_app_ok E os [o] _ s es0); [exact H|]. cbn [run]. unfold bind. rewrite Hs. reflexivity.
  Qed.

  Lemma core_step : forall s o b s' es, step E o s = Ok (b, s', es) ->
    match o with OReceive _ | OExecute => True | _ => r_deque (rxs s') = r_deque (rxs s) end.
  Proof.
    intros s o b s' es H.
    assert (K : forall (f : M (I := I) unit), keeps core f -> bind f (fun _ => ret false) s = Ok (b, s', es) ->
      r_deque (rxs s') = r_deque (rxs s)).
    { intros f Hf Hb. assert (keeps core (bind f (fun _ => ret false))) as Kb by (apply keeps_bind; [exact Hf|intros; apply keeps_ret]).
      apply Kb in Hb. unfold core in Hb. congruence. }
    destruct o; cbn [step] in H; try exact Logic.I.
    - apply (K (init E)); [apply core_init|exact H].
    - assert (keeps r_deque (bind (I := I) (enable) (fun _ => ret false))) as Kb by keeps_tac. exact (Kb _ _ _ _ H).
    - assert (keeps r_deque (bind (I := I) (disable) (fun _ => ret false))) as Kb by keeps_tac. exact (Kb _ _ _ _ H).
    - apply (K (datagram ds)); [apply core_datagram|exact H].
    - apply (K (biDiChannel1 E)); [apply core_biDi1|exact H].
    - apply (K (biDiChannel2 E)); [apply core_biDi2|exact H].
    - destruct (nth_error (pending s) i) as [c|]; [|congruence].
      apply (K (run_cb E c v)); [apply core_run_cb|exact H].
  Qed.

  Lemma reached_queue : forall s, reached E s -> Forall sane (r_deque (rxs s)).
  Proof.
    intros s (i & os & es & H). revert s es H. induction os as [|o os IH] using rev_ind; intros s es H.
    - cbn [run] in H. unfold ret in H. assert (s = st0 i) as -> by congruence. constructor.
    - apply run_app in H. destruct H as (s1 & e1 & e2 & H1 & H2 & ->). specialize (IH _ _ H1).
      cbn [run] in H2. apply bind_inv in H2. destruct H2 as (b & s2 & e3 & e4 & H2 & H3 & ->).
      cbn [run] in H3. unfold ret in H3. assert (s2 = s) as -> by congruence. clear H3.
      pose proof (core_step _ _ _ _ _ H2) as Hc.
      destruct o; try (rewrite Hc; exact IH); cbn [step] in H2.
      + apply bind_inv in H2. destruct H2 as (u & s2 & e5 & e6 & H2 & H3 & ->).
        unfold ret in H3. assert (s2 = s) as -> by congruence. destruct u.
        destruct (receive_sound E i os s1 e1 time s e5 H1 H2) as [A B].
        destruct (f_packet_end (r_fsm (rxs s))).
        * destruct (A eq_refl) as (pre & hs & bs & _ & _ & Hb & Hl & _ & _ & _ & Hd). rewrite Hd.
          destruct (is_logon bs); [exact IH|]. apply Forall_app. split; [exact IH|].
          apply Forall_cons; [split; [exact Hb|lia]|apply Forall_nil].
        * rewrite (B eq_refl). exact IH.
      + destruct (f_packet_end (r_fsm (rxs s1))) eqn:Ef.
        { rewrite execute_gate in H2 by auto. assert (s = s1) as -> by congruence. exact IH. }
        destruct (r_deque (rxs s1)) as [|p q] eqn:Ed.
        { rewrite execute_gate in H2 by auto. assert (s = s1) as -> by congruence. rewrite Ed. exact IH. }
        destruct (execute_one E s1 b s e3 p q Ef Ed H2) as [-> _]. inversion IH; assumption.
  Qed.

  Lemma reached_ready : forall s p q, reached E s -> ready s p q -> Forall byte p /\ (3 <= length p)%nat.
  Proof.
    intros s p q Hr [_ Hd]. apply reached_queue in Hr. rewrite Hd in Hr. inversion Hr; assumption.
  Qed.
End Reached.

Section Long.
  Context {I : Type} (E : Env I).
  Implicit Types s : st I.

  Lemma own_out : forall s p q n b s' es, ready s p q -> in_service s = false -> Forall byte p -> (3 <= length p)%nat ->
    for_locos p -> acts_as (r_addrs (rxs s)) p n -> execute E s = Ok (b, s', es) ->
    b = true /\ exists s1 s2 u e1 e2, hk (rxs s1) = hk (rxs s) /\ pending s1 = pending s /\ storing s e1 /\
      dispatch E n (body_of p) s1 = Ok (u, s2, e2) /\ s' = pop q s2 /\ es = e1 ++ e2.
  Proof.
    intros s p q n b s' es Hr Hm Hb Hl Hf Ha He.
    destruct (own_command E s p q n Hr Hm Hb Hl Hf Ha) as (s1 & e1 & Hk & Hp & Hs & He').
    rewrite He in He'. destruct (dispatch E n (body_of p) s1) as [[[u s2] e2]|] eqn:Ed; [|discriminate].
    split; [congruence|]. exists s1, s2, u, e1, e2. repeat split; auto; try apply Hs; congruence.
  Qed.

  Lemma body_length : forall p, (length (body_of p) <= length p)%nat.
  Proof. intros p. unfold body_of. destruct (atyp (address_of p)); rewrite skipn_length; lia. Qed.

  Lemma nth_hk : forall s s1 p k, hk (rxs s1) = hk (rxs s) -> nth_in_row s1 p k -> nth_in_row s p k.
  Proof.
    intros s s1 p k H. assert (r_cv (rxs s1) = r_cv (rxs s)) as Hc by (unfold hk in H; congruence).
    unfold nth_in_row, last_cv_packet, cv_packet_count. rewrite Hc. trivial.
  Qed.

  Lemma long_step : forall s p q b0 b1 b2 b s' es, ready s p q -> long_form s p b0 b1 b2 ->
    execute E s = Ok (b, s', es) ->
    b = true /\ exists k e1 e2, es = e1 ++ e2 /\ storing s e1 /\ nth_in_row s p k /\ counted s' p k /\
      accesses e2 = filter (permitted (locked s)) (flat_map (due k) (request b0 b1 b2)).
  Proof.
    intros s p q b0 b1 b2 b s' es Hr (Hsv & Hb & Hf & Hrange & n & t & Ha & Hc & Hbody) He.
    assert (3 <= length p)%nat as Hl by (pose proof (body_length p) as L; rewrite Hbody in L; cbn [length] in L; lia).
    destruct (own_out s p q n b s' es Hr Hsv Hb Hl Hf Ha He) as (-> & s1 & s2 & u & e1 & e2 & Hk & Hp & Hs & Hd & -> & ->).
    split; [reflexivity|].
    pose proof (body_bytes p Hb) as Hbb. rewrite Hbody in Hbb, Hd.
    inversion Hbb as [|? ? H0 Hb']; subst. inversion Hb' as [|? ? H1 Hb'']; subst. inversion Hb'' as [|? ? H2 _]; subst.
    unfold dispatch in Hd. rewrite decode_instruction_spec in Hd by assumption.
    rewrite bind_lift, (class_of b0 14 15 ICvLong H0 eq_refl) in Hd by lia.
    assert (r_deque (rxs s1) = p :: q) as Hd1 by (unfold hk in Hk; destruct Hr; congruence).
    assert (r_addrs (rxs s1) = r_addrs (rxs s)) as Had by (unfold hk in Hk; congruence).
    assert (r_conf (rxs s1) = r_conf (rxs s)) as Hcf by (unfold hk in Hk; congruence).
    assert (r_cv (rxs s1) = r_cv (rxs s)) as Hcv by (unfold hk in Hk; congruence).
    destruct (cvLong_acc E s1 p q n b0 b1 b2 t u s2 e2 Hd1 H0 H1 H2) as (k & A & B & C); [|exact Hd|].
    { unfold by_consist. rewrite Had. exact Hc. }
    exists k, e1, e2. split; [reflexivity|]. split; [exact Hs|]. split; [exact (nth_hk _ _ _ _ Hk A)|].
    split; [exact B|]. rewrite C. unfold in_service, locked. rewrite Hcv, Hcf.
    unfold in_service in Hsv. rewrite Hsv. reflexivity.
  Qed.

  (** ** Other calls do not count *)

  Lemma counter_dyn_all : forall ds, keeps counter (@dyn_all I ds).
  Proof.
    induction ds as [|d ds IH]; cbn [dyn_all]; [apply keeps_ret|].
    apply keeps_bind; [keeps_tac|intros _; exact IH].
  Qed.
  Lemma counter_datagram : forall ds, keeps counter (@datagram I ds).
  Proof.
    intros ds. unfold datagram. apply keeps_bind; [apply keeps_get|intros r].
    apply keeps_bind; [keeps_tac|intros _]. apply keeps_bind; [apply keeps_get|intros r'].
    destruct (block_dyn (r_bidi r')); [apply keeps_ret|apply counter_dyn_all].
  Qed.

  Lemma step_counter : forall s o b s' es, reached E s -> step E o s = Ok (b, s', es) ->
    (o = OExecute -> forall p q, ready s p q -> ~ cv_packet s p) -> counter (rxs s') = counter (rxs s).
  Proof.
    intros s o b s' es Hre H Hn.
    assert (K : forall (f : M (I := I) unit), keeps counter f -> bind f (fun _ => ret false) s = Ok (b, s', es) ->
      counter (rxs s') = counter (rxs s)).
    { intros f Hf Hb. assert (keeps counter (bind f (fun _ => ret false))) as Kb by (apply keeps_bind; [exact Hf|intros; apply keeps_ret]).
      exact (Kb _ _ _ _ Hb). }
    destruct o; cbn [step] in H.
    - apply (K (init E)); [keeps_tac|exact H].
    - apply (K enable); [keeps_tac|exact H].
    - apply (K disable); [keeps_tac|exact H].
    - apply (K (receive E time)); [keeps_tac|exact H].
    - specialize (Hn eq_refl).
      destruct (f_packet_end (r_fsm (rxs s))) eqn:Ef.
      { rewrite execute_gate in H by auto. congruence. }
      destruct (r_deque (rxs s)) as [|p q] eqn:Ed.
      { rewrite execute_gate in H by auto. congruence. }
      assert (ready s p q) as Hr by (split; assumption). specialize (Hn p q Hr).
      destruct (reached_ready E s p q Hre Hr) as [Hb Hl].
      destruct (execute_split E s p q Hr) as (s1 & e1 & Hk & Hp & Hs & He). rewrite H in He.
      assert (r_cv (rxs s1) = r_cv (rxs s)) as Hcv by (unfold hk in Hk; congruence).
      assert (r_addrs (rxs s1) = r_addrs (rxs s)) as Had by (unfold hk in Hk; congruence).
      assert (r_deque (rxs s1) = p :: q) as Hd1 by (unfold hk in Hk; congruence).
      destruct (executeCommand E s1) as [[[b2 s2] e2]|] eqn:Ec; [|discriminate].
      assert (s' = pop q s2) as -> by congruence.
      enough (counter (rxs s2) = counter (rxs s1)) as Hfin.
      { change (counter (rxs (pop q s2))) with (counter (rxs s2)). unfold counter in *. congruence. }
      unfold cv_packet in Hn. destruct (in_service s) eqn:Esv.
      + unfold executeCommand in Ec. rewrite bind_get in Ec. unfold in_service in Esv. rewrite Hcv, Esv in Ec.
        unfold executeService in Ec. rewrite bind_get, Hd1, bind_ret in Ec.
        destruct p as [|p0 p]; [cbn in Hl; lia|]. inversion Hb as [|? ? Hb0 _]; subst. cbn [hd] in Hn.
        cbn [at_ nth_error] in Ec. rewrite bind_ret in Ec.
        apply bind_inv in Ec. destruct Ec as (u & s3 & e3 & e4 & E1 & E2 & ->).
        unfold ret in E2. assert (s2 = s3) as -> by congruence. clear E2.
        destruct (p0 =? 0); [unfold ret in E1; congruence|].
        destruct (negb (Z.land p0 0xF0 =? 0x70)) eqn:E7.
        { assert (keeps counter (serviceMode E false)) as Kb by keeps_tac. exact (Kb _ _ _ _ E1). }
        destruct (length (p0 :: p) =? 3)%nat.
        { assert (keeps counter (registerMode E (p0 :: p))) as Kb by keeps_tac. exact (Kb _ _ _ _ E1). }
        destruct (length (p0 :: p) =? 4)%nat eqn:E4; [|unfold ret in E1; congruence].
        exfalso. apply Hn. split; [|apply Nat.eqb_eq; exact E4].
        apply negb_false_iff, Z.eqb_eq in E7. rewrite land_F0 in E7 by exact Hb0. unfold byte in Hb0. lia.
      + assert (in_service s1 = false) as Hsv1 by (unfold in_service in *; congruence).
        destruct (command_operations E s1 p q Hsv1 Hd1 Hb Hl) as [(Hf & n & Ha & Hx)|(Hno & Hx)]; rewrite Hx in Ec; [|congruence].
        apply bind_inv in Ec. destruct Ec as (u & s3 & e3 & e4 & E1 & E2 & ->).
        unfold ret in E2. assert (s2 = s3) as -> by congruence. clear E2 Hx.
        pose proof (body_bytes p Hb) as Hbb. pose proof (body_nonempty p Hl) as Hne.
        destruct (body_of p) as [|b0 bt] eqn:Eb; [contradiction|]. inversion Hbb as [|? ? Hb0 _]; subst. clear Hne.
        unfold dispatch in E1. rewrite decode_instruction_spec, bind_lift in E1 by assumption.
        destruct (Z_lt_dec b0 0xE0) as [Hlt|Hge].
        * assert (forallb (fun b => match nibble_class (b / 16) with ICvLong | ICvShort => (0xE0 <=? b) | _ => true end) (zseq 0 256) = true) as Hsw by (vm_compute; reflexivity).
          pose proof (sweep _ 0 256 Hsw b0 ltac:(unfold byte in Hb0; cbn; lia)) as Hc0. cbn beta in Hc0.
          destruct (nibble_class (b0 / 16));
            try (apply Z.leb_le in Hc0; lia);
            match type of E1 with ?f ?x = _ => assert (keeps counter f) as Kb by keeps_tac; exact (Kb _ _ _ _ E1) end.
        * assert (Hcon : (negb (n =? 0) && (n =? aval (consist (r_addrs (rxs s1)))))%bool = true).
          { destruct (negb (n =? 0) && (n =? aval (consist (r_addrs (rxs s1))))) eqn:En; [reflexivity|]. exfalso.
            apply Hn. split; [exact Hf|]. exists n. rewrite <- Had. split; [exact Ha|]. cbn [hd]. split; [|lia].
            unfold by_consist. rewrite <- Had. intros [N1 N2]. apply Z.eqb_neq in N1. apply Z.eqb_eq in N2.
            rewrite N1, N2 in En. discriminate. }
          assert (nibble_class (b0 / 16) = ICvLong \/ nibble_class (b0 / 16) = ICvShort) as [Hx|Hx].
          { unfold byte in Hb0. destruct (Z_lt_dec b0 0xF0) as [H1|H1]; [left|right].
            - apply (class_of b0 14 15); [exact Hb0|reflexivity|lia].
            - apply (class_of b0 15 16); [exact Hb0|reflexivity|lia]. }
          -- rewrite Hx in E1. unfold cvLong in E1. rewrite bind_get, Hcon in E1. unfold ret in E1. congruence.
          -- rewrite Hx in E1. unfold cvShort in E1. rewrite bind_get, Hcon in E1. unfold ret in E1. congruence.
    - apply (K (datagram ds)); [apply counter_datagram|exact H].
    - apply (K (biDiChannel1 E)); [keeps_tac|exact H].
    - apply (K (biDiChannel2 E)); [keeps_tac|exact H].
    - destruct (nth_error (pending s) i) as [c|]; [|congruence].
      apply (K (run_cb E c v)); [keeps_tac|exact H].
  Qed.

  (** ** Repetition *)

  Lemma filter_due : forall a v k l, filter is_writing (filter (permitted l) (flat_map (due k) [Store a v])) =
    if (k =? 2)%nat && permitted l (Store a v) then [Store a v] else [].
  Proof.
    intros a v k l. destruct k as [|[|[|k]]]; cbn [flat_map due List.app filter Nat.eqb andb]; try reflexivity.
    - destruct (permitted l (Store a v)); reflexivity.
    - destruct (permitted l (Check a v)); reflexivity.
  Qed.

  Lemma row_general : forall p a v s n l s', in_a_row E p a v s n l s' -> reached E s ->
    (last_cv_packet s <> p -> l = if (2 <=? n)%nat then [Store a v] else []) /\
    (last_cv_packet s = p -> (1 <= cv_packet_count s)%nat ->
     l = if ((cv_packet_count s =? 1) && (1 <=? n))%nat then [Store a v] else []).
  Proof.
    intros p a v s n l s' H. induction H as [s|s q b0 b1 b s1 es n l s' Hr Hlf Hreq Hlock Hls He Hrow IH|s o b s1 es n l s' Hn Hs Hrow IH]; intros Hre.
    - split; [reflexivity|]. intros _ _. rewrite andb_false_r. reflexivity.
    - assert (reached E s1) as Hre1 by (apply (reached_step E s OExecute b s1 es); assumption).
      destruct (IH Hre1) as [_ IH2]. clear IH.
      destruct (long_step s p q b0 b1 v b s1 es Hr Hlf He) as (_ & k & e1 & e2 & -> & Hst & Hk & Hc & Hacc).
      destruct Hst as [_ Hst]. rewrite (Hst Hls) in *. cbn [List.app]. rewrite Hacc, Hreq, filter_due.
      assert (permitted (locked s) (Store a v) = true) as ->.
      { unfold permitted. destruct (locked s); [|reflexivity]. cbn [is_writing target]. rewrite (Hlock eq_refl). reflexivity. }
      rewrite andb_true_r. destruct Hc as [Hc1 Hc2].
      assert (1 <= k)%nat as Hk1 by (destruct Hk as [[_ ->]|[_ ->]]; lia).
      specialize (IH2 Hc1 ltac:(lia)). rewrite Hc2 in IH2. rewrite IH2.
      destruct Hk as [[K1 ->]|[K1 ->]]; (split; [intros X|intros X Hcnt]); try contradiction.
      + cbn [Nat.leb]. rewrite andb_true_r. destruct (cv_packet_count s) as [|[|c]]; [lia|reflexivity|reflexivity].
      + cbn [Nat.eqb andb Nat.leb]. destruct n as [|n]; reflexivity.
    - assert (reached E s1) as Hre1 by (apply (reached_step E s o b s1 es); assumption).
      pose proof (step_counter s o b s1 es Hre Hs Hn) as Hc. unfold counter in Hc.
      assert (last_cv_packet s1 = last_cv_packet s) as H1 by (unfold last_cv_packet; congruence).
      assert (cv_packet_count s1 = cv_packet_count s) as H2 by (unfold cv_packet_count; congruence).
      rewrite <- H1, <- H2. exact (IH Hre1).
  Qed.

  Lemma written_once : forall p a v s n l s', in_a_row E p a v s n l s' -> reached E s -> last_cv_packet s <> p ->
    l = if (2 <=? n)%nat then [Store a v] else [].
  Proof. intros p a v s n l s' H Hr Hl. exact (proj1 (row_general p a v s n l s' H Hr) Hl). Qed.
End Long.
