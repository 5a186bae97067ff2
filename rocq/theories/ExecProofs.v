(** Execution of packets in operations mode: addressing, driving, functions *)
From Verif Require Import Prelude Address Instruction Speed Datagram ZBits SpecCodec RxState Rx CodecProofs CodecProofs2
  RxLogic SpecRx RxBitProofs RxBitProofs4 SpecExec.

Section Exec.
  Context {I : Type} (E : Env I).
  Implicit Types s : st I.

  (** ** Bookkeeping *)

  Definition hk (r : rx) :=
    ((r_fsm r, r_deque r, r_addrs r, r_conf r, r_cv r),
     (dyn_deque (r_bidi r), tos_deque (r_bidi r), pom_deque (r_bidi r),
      block_dyn (r_bidi r), ch1 (r_bidi r), ch2 (r_bidi r)),
     (logon_selected (r_logon r), logon_assigned (r_logon r), cid_back (r_logon r),
      sid_back (r_logon r), logon_backoff (r_logon r), logon_deque (r_logon r))).

  Lemma hk_adr : keeps hk (@adr I). Proof. keeps_tac. Qed.
  Lemma hk_store : keeps hk (logonStore E). Proof. keeps_tac. Qed.
  Lemma hk_qos : keeps hk (@updateQos I). Proof. keeps_tac. Qed.
  Lemma hk_tp : keeps hk (updateTimepoints E). Proof. keeps_tac. Qed.

  Lemma make12_ok : forall i d, 0 <= i < 16 -> 0 <= d < 256 ->
    exists x, rbind (make_datagram_id B12 i d) encode_datagram = Ok x /\ length x = 2%nat /\
      make_data (decode_datagram x) = Ok (i * 256 + d).
  Proof.
    intros i d Hi Hd. destruct (datagram_id_lossless B12 i d Hi Hd) as (x & c & H1 & H2 & H3 & H4).
    exists c. rewrite H1. cbn [rbind]. auto.
  Qed.

  Lemma adrHigh_ok : forall r a, exists x, adrHigh r a = Ok x /\ length x = 2%nat.
  Proof.
    intros r a. unfold adrHigh.
    match goal with |- exists x, rbind (make_datagram_id B12 1 ?d) _ = _ /\ _ =>
      assert (0 <= d < 256) as H end.
    { destruct (addr_eqb a (consist (r_addrs r))); [lia|]. destruct (aval a <? 128); [lia|].
      change 0x3F00 with (Z.shiftl (2 ^ 6 - 1) 8). rewrite shiftr_land_field by lia.
      change 0x80 with (2 * 2 ^ 6). rewrite lor_add by lia. change (2 ^ 6) with 64. lia. }
    destruct (make12_ok 1 _ ltac:(lia) H) as (x & H1 & H2 & _). eauto.
  Qed.

  Lemma adrLow_ok : forall r a, exists x, adrLow r a = Ok x /\ length x = 2%nat.
  Proof.
    intros r a. unfold adrLow.
    match goal with |- exists x, rbind (make_datagram_id B12 2 ?d) _ = _ /\ _ =>
      assert (0 <= d < 256) as H end.
    { destruct (addr_eqb a (consist (r_addrs r))).
      - rewrite land_7F. rewrite lor_shiftl by (change (2 ^ 7) with 128; lia).
        change (2 ^ 7) with 128. destruct (arev _); cbn [Z.b2z]; lia.
      - rewrite land_FF. lia. }
    destruct (make12_ok 2 _ ltac:(lia) H) as (x & H1 & H2 & _). eauto.
  Qed.

  (** Total, no calls *)
  Lemma adr_ok : forall s, exists s', adr s = Ok (tt, s', []) /\ app s' = app s /\ pending s' = pending s.
  Proof.
    intros s. unfold adr, get, bind at 1. cbv zeta.
    repeat match goal with |- context [if ?b then _ else _] => destruct b end;
      try (exists s; repeat split; reflexivity);
      (match goal with |- context [adrHigh ?r ?a] =>
         destruct (adrHigh_ok r a) as (x & -> & _); destruct (adrLow_ok r a) as (y & -> & _) end);
      (eexists; split; [reflexivity|split; reflexivity]).
  Qed.

  Lemma store_ok : forall s, exists s' e1, logonStore E s = Ok (tt, s', e1) /\ pending s' = pending s /\ storing s e1.
  Proof.
    intros s. unfold logonStore, get, bind at 1.
    destruct (logon_store (r_logon (rxs s))) eqn:Es; cbn [negb].
    2: { exists s, []. repeat split; try constructor. }
    unfold storing. rewrite Es.
    unfold when, writeCv, writeCvBit, modify, bind, ret.
    destruct (addr_eqb (primary (r_addrs (rxs s))) (logon (r_addrs (rxs s))));
      repeat (cbn [rxs app pending];
        match goal with |- context [let '(_, _) := ?x in _] => destruct x end);
      cbn [rxs app pending List.app];
      (eexists; eexists; split; [reflexivity|split; [reflexivity|split; [|discriminate]]]);
      repeat (apply Forall_cons; [cbn [is_store In]; auto 15|]); apply Forall_nil.
  Qed.

  Lemma qos_ok : forall s, exists s', updateQos s = Ok (tt, s', []) /\ app s' = app s /\ pending s' = pending s.
  Proof.
    intros s. unfold updateQos, get, bind. cbv zeta.
    destruct (preamble_count (r_cnt (rxs s)) <? 100); eexists; (split; [reflexivity|split; reflexivity]).
  Qed.

  Lemma tp_ok : forall s, exists s', updateTimepoints E s = Ok (tt, s', []) /\ pending s' = pending s.
  Proof.
    intros s. unfold updateTimepoints, now, bind at 1. destruct (e_now E (app s)) as [v i].
    unfold get, bind, when, modify, ret. cbn [rxs app pending].
    destruct (2000000000 <=? v - last_packet_tp (r_time (rxs s))); eexists; (split; [reflexivity|reflexivity]).
  Qed.

  Definition housekeeping : M (I := I) unit :=
    bind adr (fun _ => bind (logonStore E) (fun _ => bind updateQos (fun _ => updateTimepoints E))).

  Lemma housekeeping_ok : forall s, exists s' e1, housekeeping s = Ok (tt, s', e1) /\
    pending s' = pending s /\ storing s e1 /\ hk (rxs s') = hk (rxs s).
  Proof.
    intros s. unfold housekeeping.
    destruct (adr_ok s) as (s1 & H1 & _ & P1).
    destruct (store_ok s1) as (s2 & e2 & H2 & P2 & Hs).
    destruct (qos_ok s2) as (s3 & H3 & _ & P3).
    destruct (tp_ok s3) as (s4 & H4 & P4).
    exists s4, e2. unfold bind. rewrite H1, H2, H3, H4. cbn [List.app]. rewrite !app_nil_r.
    split; [reflexivity|]. split; [congruence|]. split.
    - unfold storing in *. destruct Hs as [Hs1 Hs2]. split; [exact Hs1|]. intros Hf. apply Hs2.
      clear - H1 Hf. revert H1 Hf. unfold adr, get, bind at 1. cbv zeta.
      repeat match goal with |- context [if ?b then _ else _] => destruct b end;
        try (intros H Hf; inversion H; subst; exact Hf);
        (match goal with |- context [adrHigh ?r ?a] =>
           destruct (adrHigh_ok r a) as (x & -> & _); destruct (adrLow_ok r a) as (y & -> & _) end);
        intros H Hf; inversion H; subst; exact Hf.
    - rewrite (hk_tp _ _ _ _ H4), (hk_qos _ _ _ _ H3), (hk_store _ _ _ _ H2), (hk_adr _ _ _ _ H1). reflexivity.
  Qed.

  Definition pop (q : list (list Z)) (s : st I) : st I := Mk_st (set_r_deque q (rxs s)) (app s) (pending s).

  Lemma execute_housekeeping : forall s p q, ready s p q -> exists s1 e1,
    housekeeping s = Ok (tt, s1, e1) /\ hk (rxs s1) = hk (rxs s) /\ pending s1 = pending s /\ storing s e1 /\
    execute E s = match executeCommand E s1 with
                  | Ok (b, s2, e2) => Ok (b, pop q s2, e1 ++ e2)
                  | UB r => UB r
                  end.
  Proof.
    intros s p q [Hp Hd]. destruct (housekeeping_ok s) as (s1 & e1 & H & P & Hs & Hk).
    exists s1, e1. split; [exact H|]. repeat split; auto; try apply Hs.
    unfold execute, get, bind at 1. rewrite Hp, Hd. cbn [length Nat.eqb orb].
    unfold housekeeping in H. apply bind_inv in H. destruct H as (u1 & t1 & f1 & f2 & H1 & H & ->).
    apply bind_inv in H. destruct H as (u2 & t2 & f3 & f4 & H2 & H & ->).
    apply bind_inv in H. destruct H as (u3 & t3 & f5 & f6 & H3 & H4 & ->).
    unfold bind at 1. rewrite H1. unfold bind at 1. rewrite H2. unfold bind at 1. rewrite H3.
    unfold bind at 1. rewrite H4. unfold bind at 1.
    destruct (executeCommand E s1) as [[[b s2] e2]|r] eqn:Ec; [|reflexivity].
    pose proof (core_executeCommand _ _ _ _ _ Ec) as Hc.
    assert (r_deque (rxs s2) = p :: q) as Hd2.
    { unfold core in Hc. unfold hk in Hk. assert (r_deque (rxs s2) = r_deque (rxs s1)) as -> by congruence.
      assert (r_deque (rxs s1) = r_deque (rxs s)) as -> by congruence. exact Hd. }
    unfold popFront, bind, get. rewrite Hd2. cbn. unfold pop. rewrite ?app_nil_r, ?app_assoc. reflexivity.
  Qed.

  Lemma execute_split : forall s p q, ready s p q -> exists s1 e1,
    hk (rxs s1) = hk (rxs s) /\ pending s1 = pending s /\ storing s e1 /\
    execute E s = match executeCommand E s1 with
                  | Ok (b, s2, e2) => Ok (b, pop q s2, e1 ++ e2)
                  | UB r => UB r
                  end.
  Proof.
    intros s p q H. destruct (execute_housekeeping s p q H) as (s1 & e1 & _ & H1). exists s1, e1. exact H1.
  Qed.

  Lemma rest_of_hk : forall s s', hk (rxs s') = hk (rxs s) -> pending s' = pending s -> rest_state s' = rest_state s.
  Proof. intros s s' H P. unfold hk in H. unfold rest_state. congruence. Qed.

  (** ** Addressing *)

  Definition dispatch (a : Z) (bytes : list Z) : M (I := I) unit :=
    bind (lift (decode_instruction bytes)) (fun i =>
      match i with
      | IDecoderControl =>
          if a =? 0 then bind (at_ bytes 0) (fun b0 => if b0 =? 0 then serviceMode E true else ret tt)
          else ret tt
      | IConsistControl => consistControl E bytes
      | IAdvancedOperations => advancedOperations E a bytes
      | ISpeedDirection => speedAndDirection E a bytes
      | IFunctionGroup => functionGroup E a bytes
      | IFeatureExpansion => featureExpansion E a bytes
      | ICvLong => cvLong E a bytes
      | ICvShort => cvShort E a bytes
      | IUnknownService | ILogon => ret tt
      end).

  Lemma bind_assoc : forall A B C (m : M (I := I) A) (k : A -> M B) (f : B -> M C) s,
    bind (bind m k) f s = bind m (fun x => bind (k x) f) s.
  Proof.
    intros A B C m k f s. unfold bind. destruct (m s) as [[[a s1] e1]|r]; [|reflexivity].
    destruct (k a s1) as [[[b s2] e2]|r]; [|reflexivity].
    destruct (f b s2) as [[[c s3] e3]|r]; [|reflexivity]. rewrite app_assoc. reflexivity.
  Qed.

  Lemma bind_get : forall A (k : rx -> M (I := I) A) s, bind get k s = k (rxs s) s.
  Proof. intros A k s. unfold bind, get. destruct (k (rxs s) s) as [[[a s1] e1]|r]; reflexivity. Qed.
  Lemma bind_ret : forall A B (a : A) (k : A -> M (I := I) B) s, bind (ret a) k s = k a s.
  Proof. intros A B a k s. unfold bind, ret. destruct (k a s) as [[[b s1] e1]|r]; reflexivity. Qed.
  Lemma bind_lift : forall A B (a : A) (k : A -> M (I := I) B) s, bind (lift (Ok a)) k s = k a s.
  Proof. intros A B a k s. unfold bind, lift. destruct (k a s) as [[[b s1] e1]|r]; reflexivity. Qed.
  Lemma bind_modify : forall B f (k : unit -> M (I := I) B) s,
    bind (modify f) k s = k tt (Mk_st (f (rxs s)) (app s) (pending s)).
  Proof. intros B f k s. unfold bind, modify. destruct (k tt _) as [[[b s1] e1]|r]; reflexivity. Qed.

  Lemma loco_eqb : forall a b, is_loco_type (atyp a) = true ->
    (addr_eqb a b = true <-> loco_number b (aval a)).
  Proof.
    intros [v t r] [v' t' r'] H. unfold addr_eqb, loco_number. cbn [atyp aval] in *.
    destruct t; try discriminate; destruct t'; cbn [is_loco_type andb atype_eqb];
      rewrite ?andb_false_r, ?andb_true_r, ?Z.eqb_eq; intuition (try discriminate; try lia; auto).
  Qed.

  Lemma class_broadcast : forall b, first_byte_class b = ATBroadcast -> b = 0.
  Proof.
    intros b. unfold first_byte_class. destruct (b =? 0) eqn:E0; [intros _; apply Z.eqb_eq; exact E0|].
    repeat match goal with |- context [if ?c then _ else _] => destruct c end; try discriminate.
    destruct (Z.to_nat (b - 253)) as [|[|[|[|n]]]]; cbn; discriminate.
  Qed.

  Lemma broadcast_zero : forall p, atyp (address_of p) = ATBroadcast -> aval (address_of p) = 0.
  Proof.
    intros [|b r]; unfold address_of; [discriminate|].
    destruct (first_byte_class b) eqn:Ec; cbn; try discriminate. intros _. apply class_broadcast. exact Ec.
  Qed.

  Lemma body_nonempty : forall p, (3 <= length p)%nat -> body_of p <> [].
  Proof.
    intros p Hl H. unfold body_of in H. destruct p as [|a [|b [|c r]]]; cbn [length] in Hl; try lia.
    destruct (atyp _); discriminate H.
  Qed.

  Lemma body_bytes : forall p, Forall byte p -> Forall byte (body_of p).
  Proof.
    intros p Hb. assert (forall k, Forall byte (skipn k p)) as H.
    { intros k. rewrite <- (firstn_skipn k p) in Hb. apply Forall_app in Hb. apply Hb. }
    unfold body_of. destruct (atyp _); apply H.
  Qed.

  Lemma command_operations : forall s p q, in_service s = false -> r_deque (rxs s) = p :: q ->
    Forall byte p -> (3 <= length p)%nat ->
    (for_locos p /\ exists n, acts_as (r_addrs (rxs s)) p n /\
       executeCommand E s = bind (dispatch n (body_of p)) (fun _ => ret true) s)
    \/ (~ (for_locos p /\ exists n, acts_as (r_addrs (rxs s)) p n) /\ executeCommand E s = Ok (false, s, [])).
  Proof.
    intros s p q Hm Hd Hb Hl. unfold executeCommand. rewrite bind_get.
    unfold in_service in Hm. rewrite Hm. unfold executeOperations. rewrite bind_get, Hd, bind_ret.
    rewrite decode_address_of by (auto; lia). rewrite bind_lift.
    assert (Hbz := broadcast_zero p).
    set (a := address_of p) in *. set (ad := r_addrs (rxs s)).
    assert (Hop : forall bs, match atyp a with ATBroadcast | ATShort | ATLong => True | _ => False end ->
      (exists n, acts_as ad p n /\ executeOperationsAddressed E a bs s = bind (dispatch n bs) (fun _ => ret true) s)
      \/ (~ exists n, acts_as ad p n) /\ executeOperationsAddressed E a bs s = Ok (false, s, [])).
    { intros bs Ht. unfold executeOperationsAddressed. rewrite bind_get. cbv zeta. fold ad.
      destruct (aval a =? 0) eqn:E0.
      { apply Z.eqb_eq in E0. left. exists 0. split; [apply to_all; exact E0|].
        unfold dispatch. rewrite bind_assoc. reflexivity. }
      apply Z.eqb_neq in E0.
      assert (Hlt : is_loco_type (atyp a) = true).
      { destruct (atyp a) eqn:Et; try contradiction; try reflexivity. exfalso. auto. }
      assert (Hp := loco_eqb a (primary ad) Hlt). assert (Hc := loco_eqb a (consist ad) Hlt).
      assert (Hlo := loco_eqb a (logon ad) Hlt).
      destruct ((addr_eqb a (primary ad) || addr_eqb a (consist ad)) && (aval (logon ad) =? 0)) eqn:E1.
      { apply andb_true_iff in E1. destruct E1 as [E1 E2]. apply Z.eqb_eq in E2. apply orb_true_iff in E1.
        left. exists (aval a). split.
        - apply to_own; auto. rewrite Hp, Hc in E1. exact E1.
        - unfold dispatch. rewrite bind_assoc, (proj2 (Z.eqb_neq _ _) E0). reflexivity. }
      destruct (addr_eqb a (logon ad)) eqn:E2.
      { left. exists (aval (primary ad)). split.
        - apply (to_assigned _ _ (aval a)); auto. apply Hlo. reflexivity.
        - unfold dispatch. rewrite bind_assoc. reflexivity. }
      right. split; [|reflexivity]. intros (n & Hn). destruct Hn as [Hn|n Hn1 Hn2 Hn3 H2|n Hn1 Hn2 H1]; fold a in Hn || fold a in Hn2; try congruence; rewrite <- ?Hn2 in *.
      - apply andb_false_iff in E1. destruct E1 as [E1|E1]; [|apply Z.eqb_neq in E1; congruence].
        apply orb_false_elim in E1. destruct E1 as [E3 E4].
        destruct H2 as [H2|H2]; [apply Hp in H2|apply Hc in H2]; congruence.
      - apply Hlo in H1. congruence. }
    unfold for_locos, body_of. fold a.
    destruct (atyp a) eqn:Et; cbn [In];
      try (right; split; [intuition discriminate|reflexivity]).
    - destruct (Hop (skipn 1 p) Logic.I) as [(n & H1 & H2)|(H1 & H2)].
      + left. split; [auto|]. exists n. split; [exact H1|exact H2].
      + right. split; [intros [_ H]; exact (H1 H)|exact H2].
    - destruct (Hop (skipn 1 p) Logic.I) as [(n & H1 & H2)|(H1 & H2)].
      + left. split; [auto|]. exists n. split; [exact H1|exact H2].
      + right. split; [intros [_ H]; exact (H1 H)|exact H2].
    - destruct (Hop (skipn 2 p) Logic.I) as [(n & H1 & H2)|(H1 & H2)].
      + left. split; [auto|]. exists n. split; [exact H1|exact H2].
      + right. split; [intros [_ H]; exact (H1 H)|exact H2].
  Qed.

  Lemma acts_as_fun : forall ad p n m, acts_as ad p n -> acts_as ad p m -> n = m.
  Proof.
    intros ad p n m H K. inversion H; inversion K; subst; try congruence;
      unfold loco_number in *; intuition congruence.
  Qed.

  (** A packet for this decoder: bookkeeping, then the command *)
  Lemma own_command : forall s p q n, ready s p q -> in_service s = false -> Forall byte p -> (3 <= length p)%nat ->
    for_locos p -> acts_as (r_addrs (rxs s)) p n ->
    exists s1 e1, hk (rxs s1) = hk (rxs s) /\ pending s1 = pending s /\ storing s e1 /\
      execute E s = match dispatch n (body_of p) s1 with
                    | Ok (_, s2, e2) => Ok (true, pop q s2, e1 ++ e2)
                    | UB r => UB r
                    end.
  Proof.
    intros s p q n Hr Hm Hb Hl Hf Ha. destruct (execute_split s p q Hr) as (s1 & e1 & Hk & Hp & Hs & He).
    exists s1, e1. split; [exact Hk|]. split; [exact Hp|]. split; [exact Hs|].
    assert (r_cv (rxs s1) = r_cv (rxs s)) as H1 by (unfold hk in Hk; congruence).
    assert (r_addrs (rxs s1) = r_addrs (rxs s)) as H2 by (unfold hk in Hk; congruence).
    assert (r_deque (rxs s1) = p :: q) as H3 by (unfold hk in Hk; destruct Hr; congruence).
    assert (in_service s1 = false) as H4 by (unfold in_service in *; congruence).
    destruct (command_operations s1 p q H4 H3 Hb Hl) as [(_ & m & Hm1 & Hm2)|(Hn & _)].
    - rewrite H2 in Hm1. rewrite (acts_as_fun _ _ _ _ Ha Hm1). rewrite He, Hm2.
      unfold bind. destruct (dispatch m (body_of p) s1) as [[[u s2] e2]|r]; [|reflexivity].
      cbn. rewrite app_nil_r. reflexivity.
    - exfalso. apply Hn. rewrite H2. split; [exact Hf|]. exists n. exact Ha.
  Qed.

  Lemma foreign : forall s p q, ready s p q -> in_service s = false -> Forall byte p -> (3 <= length p)%nat ->
    ~ (for_locos p /\ exists n, acts_as (r_addrs (rxs s)) p n) -> reacts E s q false [].
  Proof.
    intros s p q Hr Hm Hb Hl Hn. destruct (execute_split s p q Hr) as (s1 & e1 & Hk & Hp & Hs & He).
    assert (r_cv (rxs s1) = r_cv (rxs s)) as H1 by (unfold hk in Hk; congruence).
    assert (r_addrs (rxs s1) = r_addrs (rxs s)) as H2 by (unfold hk in Hk; congruence).
    assert (r_deque (rxs s1) = p :: q) as H3 by (unfold hk in Hk; destruct Hr; congruence).
    assert (in_service s1 = false) as H4 by (unfold in_service in *; congruence).
    destruct (command_operations s1 p q H4 H3 Hb Hl) as [(Hf & m & Hm1 & Hm2)|(_ & Hm2)].
    - exfalso. apply Hn. rewrite H2 in Hm1. eauto.
    - exists (pop q s1), e1. rewrite He, Hm2. split; [reflexivity|]. split; [exact Hs|].
      split; [|reflexivity]. rewrite <- (rest_of_hk _ _ Hk Hp). reflexivity.
  Qed.

  (** ** Driving *)

  Definition bump (s : st I) (e : event) : st I := Mk_st (rxs s) (e_hook E (app s) e) (pending s).
  Fixpoint bumps (s : st I) (es : list event) : st I :=
    match es with [] => s | e :: r => bumps (bump s e) r end.
  Lemma bumps_rxs : forall es s, rxs (bumps s es) = rxs s.
  Proof. induction es as [|e es IH]; intros s; [reflexivity|]. cbn [bumps]. rewrite IH. reflexivity. Qed.
  Lemma bumps_pending : forall es s, pending (bumps s es) = pending s.
  Proof. induction es as [|e es IH]; intros s; [reflexivity|]. cbn [bumps]. rewrite IH. reflexivity. Qed.

  (** [m] makes exactly the calls [es] from [s] *)
  Definition says (m : M (I := I) unit) s es : Prop := m s = Ok (tt, bumps s es, es).

  Lemma says_call : forall e s, says (call E e) s [e].
  Proof. reflexivity. Qed.
  Lemma says_seq : forall m k s es es', says m s es -> says k (bumps s es) es' ->
    says (bind m (fun _ => k)) s (es ++ es').
  Proof.
    unfold says. intros m k s es es' H K. unfold bind. rewrite H, K.
    assert (forall es s, bumps s (es ++ es') = bumps (bumps s es) es') as L.
    { clear. induction es as [|e es IH]; intros s; [reflexivity|]. cbn. apply IH. }
    rewrite L. reflexivity.
  Qed.

  Lemma says_cons : forall e e' k s es, e = e' -> says k (bump s e') es ->
    says (bind (call E e) (fun _ => k)) s (e' :: es).
  Proof. intros e e' k s es -> H. exact (says_seq (call E e') k s [e'] es (says_call e' s) H). Qed.

  Lemma own_reacts : forall s p q n calls, ready s p q -> in_service s = false -> Forall byte p -> (3 <= length p)%nat ->
    for_locos p -> acts_as (r_addrs (rxs s)) p n ->
    (forall s1, r_addrs (rxs s1) = r_addrs (rxs s) -> r_conf (rxs s1) = r_conf (rxs s) ->
       says (dispatch n (body_of p)) s1 calls) ->
    reacts E s q true calls.
  Proof.
    intros s p q n calls Hr Hm Hb Hl Hf Ha H.
    destruct (own_command s p q n Hr Hm Hb Hl Hf Ha) as (s1 & e1 & Hk & Hp & Hs & He).
    rewrite H in He by (unfold hk in Hk; congruence).
    eexists. exists e1. split; [exact He|]. split; [exact Hs|]. split; [|reflexivity].
    unfold pop, rest_state. cbn [rxs pending set_r_deque r_fsm r_addrs r_conf r_cv r_bidi r_logon].
    rewrite bumps_rxs, bumps_pending. rewrite Hp. unfold hk in Hk. congruence.
  Qed.

  Lemma turn : forall ad n d,
    (if (if n =? aval (primary ad) then arev (primary ad) else arev (consist ad)) then negb d else d) = turned ad n d.
  Proof.
    intros ad n d. unfold turned. destruct (n =? aval (primary ad));
      match goal with |- context [if ?b then _ else _] => destruct b end; destruct d; reflexivity.
  Qed.

  Lemma says_drive : forall ad n d v s, r_addrs (rxs s) = ad ->
    says (directionSpeed E n d v) s [EDirection n (turned ad n d); ESpeed n v].
  Proof.
    intros ad n d v s <-. unfold says, directionSpeed. rewrite bind_get. rewrite turn. reflexivity.
  Qed.

  Lemma says_speed126 : forall ad n b0 b t s, byte b -> r_addrs (rxs s) = ad ->
    says (speed126 E n (b0 :: b :: t)) s (speed126_calls ad n b).
  Proof.
    intros ad n b0 b t s Hb Had. unfold speed126, says. cbn [at_ nth_error]. rewrite bind_ret.
    rewrite land_7F. unfold speed126_calls.
    replace (Z.testbit b 7) with (128 <=? b)
      by (apply eqb_prop; exact (sweep8 (fun b => Bool.eqb (128 <=? b) (Z.testbit b 7)) ltac:(vm_compute; reflexivity) b Hb)).
    replace (Z.land b 0x7E =? 0) with ((b mod 128 =? 0) || (b mod 128 =? 1))
      by (apply eqb_prop; exact (sweep8 (fun b => Bool.eqb ((b mod 128 =? 0) || (b mod 128 =? 1)) (Z.land b 0x7E =? 0))
            ltac:(vm_compute; reflexivity) b Hb)).
    destruct (b mod 128 =? 0) eqn:E0; cbn [orb].
    - apply Z.eqb_eq in E0. rewrite E0. cbn [Z.eqb]. apply says_drive; auto.
    - destruct (b mod 128 =? 1) eqn:E1; [reflexivity|].
      apply Z.eqb_neq in E0. apply Z.eqb_neq in E1. unfold drive.
      rewrite scale_speed_value by (cbn [In]; auto; unfold byte in Hb; lia). apply says_drive; auto.
  Qed.

  Lemma speed126_reacts : forall s p q n b t, ready s p q -> in_service s = false -> Forall byte p -> (3 <= length p)%nat ->
    for_locos p -> acts_as (r_addrs (rxs s)) p n -> body_of p = 0x3F :: b :: t ->
    reacts E s q true (speed126_calls (r_addrs (rxs s)) n b).
  Proof.
    intros s p q n b t Hr Hm Hb Hl Hf Ha Hi. apply (own_reacts s p q n); auto.
    intros s1 H1 H2. rewrite Hi. unfold dispatch. cbn [decode_instruction]. unfold says. rewrite bind_lift.
    cbn -[advancedOperations]. unfold advancedOperations. cbn [at_ nth_error]. rewrite bind_ret.
    cbn [Z.eqb Pos.eqb]. apply says_speed126; [|exact H1].
    pose proof (body_bytes p Hb) as Hbb. rewrite Hi in Hbb. inversion Hbb as [|? ? ? Hbb2]; subst. inversion Hbb2; assumption.
  Qed.

  Lemma nibble : forall b, byte b -> exists k, 0 <= k < 16 /\ b / 16 = k /\ 16 * k <= b < 16 * k + 16.
  Proof. unfold byte. intros b Hb. exists (b / 16). lia. Qed.

  Lemma class_of : forall b lo hi c, byte b ->
    forallb (fun k => match c, nibble_class k with
       | ISpeedDirection, ISpeedDirection | IFunctionGroup, IFunctionGroup | ICvLong, ICvLong
       | ICvShort, ICvShort | IFeatureExpansion, IFeatureExpansion | IConsistControl, IConsistControl
       | IAdvancedOperations, IAdvancedOperations | IDecoderControl, IDecoderControl => true
       | _, _ => false end) (zseq lo (Z.to_nat (hi - lo))) = true ->
    16 * lo <= b < 16 * hi -> nibble_class (b / 16) = c.
  Proof.
    intros b lo hi c Hb H Hr. assert (Hk : lo <= b / 16 < lo + Z.of_nat (Z.to_nat (hi - lo))) by lia.
    pose proof (sweep _ _ _ H _ Hk) as Hc. cbn beta in Hc.
    destruct c, (nibble_class (b / 16)); congruence.
  Qed.

  Lemma speed28_reacts : forall s p q n b t, ready s p q -> in_service s = false -> Forall byte p -> (3 <= length p)%nat ->
    for_locos p -> acts_as (r_addrs (rxs s)) p n -> body_of p = b :: t -> 0x40 <= b < 0x80 ->
    reacts E s q true (speed28_calls (r_addrs (rxs s)) (f0_exception (r_conf (rxs s))) n b).
  Proof.
    intros s p q n b t Hr Hm Hb Hl Hf Ha Hi Hrange. apply (own_reacts s p q n); auto.
    intros s1 H1 H2. rewrite Hi. unfold dispatch.
    pose proof (body_bytes p Hb) as Hbb. rewrite Hi in Hbb. inversion Hbb as [|? ? Hb0 _]; subst.
    rewrite decode_instruction_spec by assumption. unfold says. rewrite bind_lift.
    rewrite (class_of b 4 8 ISpeedDirection Hb0 eq_refl) by lia.
    unfold speedAndDirection. cbn [at_ nth_error]. rewrite bind_ret.
    rewrite <- H1, <- H2. unfold speed28_calls.
    rewrite land_0F.
    assert (Hs := sweep (fun b => Bool.eqb (96 <=? b) (Z.testbit b 5) && Bool.eqb (negb (b mod 16 =? 0) && (Z.land b 0x0E =? 0)) (b mod 16 =? 1)
                     && (b / 16 mod 2 =? (if Z.testbit b 4 then 1 else 0))) 64 64 ltac:(vm_compute; reflexivity) b Hrange).
    cbn beta in Hs. apply andb_true_iff in Hs. destruct Hs as [Hs H5]. apply andb_true_iff in Hs. destruct Hs as [H3 H4].
    apply eqb_prop in H3, H4. apply Z.eqb_eq in H5. rewrite H3, H4, H5.
    destruct (b mod 16 =? 1) eqn:E1; [reflexivity|]. rewrite bind_get. apply Z.eqb_neq in E1.
    destruct (f0_exception (r_conf (rxs s1))) eqn:Ef.
    - change (EFunction n 1 (if Z.testbit b 4 then 1 else 0) :: ?r) with ([EFunction n 1 (if Z.testbit b 4 then 1 else 0)] ++ r).
      apply says_seq; [apply says_call|]. unfold drive.
      destruct (b mod 16 =? 0) eqn:E0; [apply says_drive; auto|].
      apply Z.eqb_neq in E0. rewrite scale_speed_value by (cbn [In]; auto; lia). apply says_drive; auto.
    - unfold drive. destruct (b mod 16 =? 0) eqn:E0; [apply says_drive; auto|]. apply Z.eqb_neq in E0.
      assert ((if negb (Z.shiftl (b mod 16 - 1) 1 =? 0) && negb (Z.testbit b 4)
               then Z.shiftl (b mod 16 - 1) 1 - 1 else Z.shiftl (b mod 16 - 1) 1)
              = 2 * (b mod 16) - 3 + (if Z.testbit b 4 then 1 else 0)) as ->.
      { rewrite Z.shiftl_mul_pow2 by lia. change (2 ^ 1) with 2.
        replace ((b mod 16 - 1) * 2 =? 0) with false by (symmetry; apply Z.eqb_neq; lia).
        destruct (Z.testbit b 4); cbn [negb andb]; lia. }
      rewrite scale_speed_value by (cbn [In]; auto; destruct (Z.testbit b 4); lia). apply says_drive; auto.
  Qed.

  (** ** Functions *)

  Lemma group_reacts : forall s p q n b t, ready s p q -> in_service s = false -> Forall byte p -> (3 <= length p)%nat ->
    for_locos p -> acts_as (r_addrs (rxs s)) p n -> body_of p = b :: t -> 0x80 <= b < 0xC0 ->
    reacts E s q true [function_group_call (f0_exception (r_conf (rxs s))) n b].
  Proof.
    intros s p q n b t Hr Hm Hb Hl Hf Ha Hi Hrange. apply (own_reacts s p q n); auto.
    intros s1 H1 H2. rewrite Hi. unfold dispatch.
    pose proof (body_bytes p Hb) as Hbb. rewrite Hi in Hbb. inversion Hbb as [|? ? Hb0 _]; subst.
    rewrite decode_instruction_spec by assumption. unfold says. rewrite bind_lift.
    rewrite (class_of b 8 12 IFunctionGroup Hb0 eq_refl) by lia.
    unfold functionGroup. cbn [at_ nth_error]. rewrite bind_ret, bind_get, H2.
    unfold function_group_call, functions.
    set (f14 := f0_exception (r_conf (rxs s))).
    assert (Hs : forall f14 : bool,
      (if (Z.land b 0xF0 =? 0x80) || (Z.land b 0xF0 =? 0x90)
       then (if f14 then 0x1E else 0x1F, Z.lor (Z.shiftl (Z.land b 0x0F) 1) (Z.shiftr (Z.land b 0x10) 4))
       else if Z.land b 0xF0 =? 0xB0 then (0x1E0, Z.shiftl (Z.land b 0x0F) 5)
       else if Z.land b 0xF0 =? 0xA0 then (0x1E00, Z.shiftl (Z.land b 0x0F) 9) else (0, 0))
      = (if b <? 0xA0 then (if f14 then 0x1E else 0x1F, 2 * (b mod 16) + b / 16 mod 2)
         else if b <? 0xB0 then (0x1E00, (b mod 16) * 512) else (0x1E0, (b mod 16) * 32))).
    { intros f. set (eqp := fun x y : Z * Z => (fst x =? fst y) && (snd x =? snd y)).
      assert (Heqp : forall x y, eqp x y = true -> x = y).
      { intros [x1 x2] [y1 y2] H. unfold eqp in H. cbn [fst snd] in H. apply andb_true_iff in H.
        destruct H as [Hx Hy]. apply Z.eqb_eq in Hx, Hy. subst. reflexivity. }
      apply Heqp. destruct f; (match goal with |- ?t = true => let F := eval pattern b in t in
        match F with ?P _ => apply (sweep P 128 64); [vm_compute; reflexivity|exact Hrange] end end). }
    rewrite Hs. destruct (b <? 0xA0); [destruct f14|destruct (b <? 0xB0)]; cbv beta iota zeta;
      try (change (2 ^ 0) with 1; rewrite !Z.mul_1_r); apply says_call.
  Qed.

  Lemma expansion_reacts : forall s p q n b v t, ready s p q -> in_service s = false -> Forall byte p -> (3 <= length p)%nat ->
    for_locos p -> acts_as (r_addrs (rxs s)) p n -> body_of p = b :: v :: t -> b = 0xDE \/ b = 0xDF ->
    reacts E s q true [functions n (if b =? 0xDE then 13 else 21) 8 v].
  Proof.
    intros s p q n b v t Hr Hm Hb Hl Hf Ha Hi Hrange. apply (own_reacts s p q n); auto.
    intros s1 H1 H2. rewrite Hi. unfold dispatch.
    pose proof (body_bytes p Hb) as Hbb. rewrite Hi in Hbb. inversion Hbb as [|? ? Hb0 Hbv]; subst.
    inversion Hbv as [|? ? Hv _]; subst. unfold byte in Hv.
    rewrite decode_instruction_spec by assumption. unfold says. rewrite bind_lift.
    rewrite (class_of b 12 14 IFeatureExpansion Hb0 eq_refl) by lia.
    unfold featureExpansion. cbn [at_ nth_error]. rewrite !bind_ret.
    destruct Hrange as [-> | ->]; cbn [Z.eqb Pos.eqb]; unfold functions, u32;
      rewrite bind_ret, Z.shiftl_mul_pow2, Z.mod_small by lia; reflexivity.
  Qed.

  Lemma combined_reacts : forall s p q n b fs c, ready s p q -> in_service s = false -> Forall byte p -> (3 <= length p)%nat ->
    for_locos p -> acts_as (r_addrs (rxs s)) p n -> body_of p = 0x3C :: b :: fs ++ [c] ->
    reacts E s q true (combined true n 0 (firstn 4 fs) ++ speed126_calls (r_addrs (rxs s)) n b).
  Proof.
    intros s p q n b fs c Hr Hm Hb Hl Hf Ha Hi. apply (own_reacts s p q n); auto.
    intros s1 H1 H2. rewrite Hi. unfold dispatch.
    pose proof (body_bytes p Hb) as Hbb. rewrite Hi in Hbb. inversion Hbb as [|? ? Hb0 Hbv]; subst.
    inversion Hbv as [|? ? Hv Hfs]; subst. apply Forall_app in Hfs. destruct Hfs as [Hfs _].
    rewrite decode_instruction_spec by assumption. unfold says. rewrite bind_lift. rewrite <- H1.
    rewrite (class_of 0x3C 2 4 IAdvancedOperations Hb0 eq_refl) by lia.
    unfold advancedOperations. change (at_ (0x3C :: ?r) 0) with (ret (I := I) 0x3C). rewrite bind_ret.
    change (0x3C =? 0x3C) with true. cbv iota zeta.
    assert (Hsh : forall v k, byte v -> 0 <= k <= 24 -> u32 (Z.shiftl v k) = v * 2 ^ k).
    { intros v k Hvb Hk. rewrite Z.shiftl_mul_pow2 by lia. unfold u32. apply Z.mod_small.
      unfold byte in Hvb. assert (2 ^ k <= 2 ^ 24) by (apply Z.pow_le_mono_r; lia).
      assert (0 < 2 ^ k) by (apply Z.pow_pos_nonneg; lia). change (2 ^ 24) with 16777216 in *. nia. }
    assert (Hlen : length (fs ++ [c]) = S (length fs)) by (rewrite app_length; cbn [length]; lia).
    destruct fs as [|f0 [|f1 [|f2 [|f3 fs]]]]; cbn [firstn combined andb Z.eqb Pos.eqb Z.add Pos.add List.app length] in *;
      rewrite ?Hlen; unfold functions; unfold when; cbn [Nat.ltb Nat.leb at_ nth_error].
    all: repeat match goal with H : Forall byte (_ :: _) |- _ => inversion H; subst; clear H end.
    all: repeat first
      [ rewrite bind_ret
      | match goal with |- bind (bind (ret _) _) _ _ = _ => rewrite bind_assoc, bind_ret end
      | match goal with |- bind (call E ?e) ?k ?s = Ok (_, _, ?e' :: ?r) =>
          apply (says_cons e e' (k tt) s r); [rewrite ?Hsh by (assumption || lia); reflexivity|]; unfold says
        end ].
    all: apply says_speed126; [assumption|reflexivity].
  Qed.

  Lemma combined_short : forall n fs first, (length fs <= 3)%nat -> first <= 0 \/ (length fs <= 2)%nat /\ first <= 8
     \/ (length fs <= 1)%nat /\ first <= 16 \/ fs = [] ->
    combined true n first fs = combined false n first fs.
  Proof.
    intros n. induction fs as [|f fs IH]; intros first Hl H; [reflexivity|]. cbn [combined length] in *.
    replace (first =? 24) with false by (symmetry; apply Z.eqb_neq; destruct H as [H|[[H1 H]|[[H1 H]|H]]]; try lia; discriminate).
    cbn [andb]. f_equal. apply IH; [lia|].
    destruct fs as [|f1 fs]; [auto|]. cbn [length] in *.
    destruct H as [H|[[H1 H]|[[H1 H]|H]]]; try lia; try discriminate.
  Qed.

  Lemma combined_three : forall s p q n b fs c, ready s p q -> in_service s = false -> Forall byte p -> (3 <= length p)%nat ->
    for_locos p -> acts_as (r_addrs (rxs s)) p n -> body_of p = 0x3C :: b :: fs ++ [c] -> (length fs <= 3)%nat ->
    reacts E s q true (combined false n 0 fs ++ speed126_calls (r_addrs (rxs s)) n b).
  Proof.
    intros s p q n b fs c Hr Hm Hb Hl Hf Ha Hi Hk.
    rewrite <- combined_short by (try lia; left; lia).
    replace fs with (firstn 4 fs) at 1 by (apply firstn_all2; lia).
    apply (combined_reacts s p q n b fs c); assumption.
  Qed.

  (** ** Whose packets *)

  Lemma emits_dispatch : forall n bs, emits (reported_as n) (dispatch n bs).
  Proof. intros n bs. emits_tac; cbn; try reflexivity; trivial. Qed.

  Lemma returns_own : forall s p q b s' es, ready s p q -> in_service s = false -> Forall byte p -> (3 <= length p)%nat ->
    execute E s = Ok (b, s', es) ->
    (b = true <-> for_locos p /\ exists n, acts_as (r_addrs (rxs s)) p n).
  Proof.
    intros s p q b s' es Hr Hm Hb Hl He.
    destruct (execute_split s p q Hr) as (s1 & e1 & Hk & Hp & Hs & He').
    assert (r_cv (rxs s1) = r_cv (rxs s)) as H1 by (unfold hk in Hk; congruence).
    assert (r_addrs (rxs s1) = r_addrs (rxs s)) as H2 by (unfold hk in Hk; congruence).
    assert (r_deque (rxs s1) = p :: q) as H3 by (unfold hk in Hk; destruct Hr; congruence).
    assert (in_service s1 = false) as H4 by (unfold in_service in *; congruence).
    rewrite He in He'.
    destruct (command_operations s1 p q H4 H3 Hb Hl) as [(Hf & m & Hm1 & Hm2)|(Hn & Hm2)]; rewrite H2 in *.
    - split; [intros _; eauto|intros _]. rewrite Hm2 in He'. unfold bind in He'.
      destruct (dispatch m (body_of p) s1) as [[[u s2] e2]|r]; [|discriminate]. cbn in He'. congruence.
    - rewrite Hm2 in He'. assert (b = false) as -> by congruence. split; [discriminate|intros H; contradiction].
  Qed.

  Lemma reported : forall s p q n b s' es, ready s p q -> in_service s = false -> Forall byte p -> (3 <= length p)%nat ->
    for_locos p -> acts_as (r_addrs (rxs s)) p n -> execute E s = Ok (b, s', es) -> Forall (reported_as n) es.
  Proof.
    intros s p q n b s' es Hr Hm Hb Hl Hf Ha He.
    destruct (own_command s p q n Hr Hm Hb Hl Hf Ha) as (s1 & e1 & Hk & Hp & Hs & He').
    rewrite He in He'. destruct (dispatch n (body_of p) s1) as [[[u s2] e2]|r] eqn:Ed; [|discriminate].
    assert (es = e1 ++ e2) as -> by congruence. apply Forall_app. split; [|exact (emits_dispatch _ _ _ _ _ _ Ed)].
    eapply Forall_impl; [|apply Hs]. intros e. destruct e; cbn; trivial; contradiction.
  Qed.
End Exec.
