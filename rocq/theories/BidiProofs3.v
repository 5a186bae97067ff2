(** BiDi: who is answered in which channel, and how *)
From Verif Require Import Prelude Address Instruction Datagram Packets Backoff RxState Rx ZBits RxLogic RxInv SpecCodec CodecProofs CodecProofs2
  SpecRx RxBitProofs SpecExec ExecProofs SpecConf SpecCv CvProofs SaneProofs SpecLogon LogonProofs LogonProofs2 LogonProofs3 LogonProofs4 SpecBidi BidiProofs BidiProofs2.

Section Answers.
  Context {I : Type} (E : Env I).
  Implicit Types s : st I.

  (** What no transmission changes *)
  (** ** Channel 1 *)
  Lemma biDi1_exact : forall s, talk (rxs s) -> exists s' ds, biDiChannel1 E s = Ok (tt, s', map ETransmitBiDi ds) /\
    calm s' = calm s /\ waiting s' = waiting s /\ data_blocked s' = data_blocked s /\
    (to_locos s -> ds = firstn 1 (addresses_waiting s) /\ addresses_waiting s' = tl (addresses_waiting s)) /\
    (atyp (last_address s) = ATLogon -> ds = map (firstn 2) (firstn 1 (logon_answers s)) /\ addresses_waiting s' = addresses_waiting s) /\
    (~ to_locos s -> atyp (last_address s) <> ATLogon -> s' = s /\ ds = []).
  Proof.
    intros s Hs. unfold biDiChannel1. rewrite bind_get. unfold to_locos, last_address.
    assert (L : exists s' ds, appAdr E s = Ok (tt, s', map ETransmitBiDi ds) /\ calm s' = calm s /\ waiting s' = waiting s /\
      data_blocked s' = data_blocked s /\ ds = firstn 1 (addresses_waiting s) /\ addresses_waiting s' = tl (addresses_waiting s)).
    { rewrite appAdr_run. unfold addresses_waiting, transmit. destruct (adr_deque (r_bidi (rxs s))) as [|d q] eqn:Eq.
      - exists s, []. repeat split; auto.
      - eexists. exists [d]. repeat split. }
    assert (G : exists s' ds, appLogon E 1 s = Ok (tt, s', map ETransmitBiDi ds) /\ calm s' = calm s /\ waiting s' = waiting s /\
      data_blocked s' = data_blocked s /\ ds = map (firstn 2) (firstn 1 (logon_answers s)) /\ addresses_waiting s' = addresses_waiting s).
    { rewrite appLogon1_run by exact Hs. unfold logon_answers, transmit. destruct (logon_deque (r_logon (rxs s))) as [|d q] eqn:Eq.
      - exists s, []. repeat split; auto.
      - eexists. exists [firstn 2 d]. repeat split. }
    destruct L as (s1 & d1 & L1 & L2 & L3 & L4 & L5). destruct G as (s2 & d2 & G1 & G2 & G3 & G4 & G5).
    destruct (atyp (received (r_addrs (rxs s)))); cbn [In];
      first [ exists s1, d1; repeat (split; [assumption|]); split; [auto|split; [discriminate|intros X; exfalso; apply X; auto]]
            | exists s2, d2; repeat (split; [assumption|]); split; [intuition discriminate|split; [auto|intros ? X; exfalso; apply X; reflexivity]]
            | exists s, []; split; [reflexivity|]; repeat (split; [reflexivity|]); split; [intuition discriminate|split; [discriminate|auto]] ].
  Qed.

  (** ** Channel 2 *)
  Lemma classify_cv : forall b, byte b -> (classify b = ICvLong <-> 0xE0 <= b < 0xF0).
  Proof.
    intros b Hb.
    pose proof (sweep8 (fun b => Bool.eqb (match classify b with ICvLong => true | _ => false end) ((0xE0 <=? b) && (b <? 0xF0)))
      ltac:(vm_compute; reflexivity) b Hb) as H. cbn beta in H. apply eqb_prop in H.
    split.
    - intros Hc. rewrite Hc in H. lia.
    - intros Hc. destruct (classify b); try reflexivity; exfalso; lia.
  Qed.
  Lemma nth_skipn : forall (p : list Z) k, nth k p 0 = hd 0 (skipn k p).
  Proof. induction p as [|x p IH]; intros [|k]; cbn [nth skipn hd]; auto. Qed.
  Lemma packet_class : forall s i, Forall byte (last_bytes s) -> decode_instruction_packet (last_bytes s) = Ok i -> (i = ICvLong <-> for_cvs s).
  Proof.
    intros s i Hb H. unfold for_cvs. destruct (last_bytes s) as [|b p]; [discriminate|]. unfold decode_instruction_packet in H. cbn [hd].
    cbv zeta. rewrite nth_skipn.
    assert (K : forall k, decode_instruction (skipn k (b :: p)) = Ok i -> (i = ICvLong <-> 0xE0 <= hd 0 (skipn k (b :: p)) < 0xF0)).
    { intros k Hk. assert (Forall byte (skipn k (b :: p))) as Hs by (apply Forall_skipn'; exact Hb).
      destruct (skipn k (b :: p)) as [|x r]; [discriminate|]. apply Ok_inj in Hk. subst i. inversion Hs; subst. apply classify_cv. assumption. }
    destruct (_ && _); apply K; exact H.
  Qed.
  Lemma packet_decodes : forall p, (3 <= length p)%nat -> exists i, decode_instruction_packet p = Ok i.
  Proof.
    intros [|a [|b [|c p]]] H; cbn [length] in H; try lia. unfold decode_instruction_packet. destruct (_ && _); eexists; reflexivity.
  Qed.

  Lemma pom_answers : forall s, own_packet s -> for_cvs s -> exists s' ds, appPom E s = Ok (tt, s', map ETransmitBiDi ds) /\ steady s s' /\
    answer2 s ds (waiting s').
  Proof.
    intros s Ho Hc. rewrite appPom_run. change (ch2_data_enabled (r_conf (rxs s))) with (channel2_on s).
    destruct (channel2_on s) eqn:Ed; cbn [negb].
    2: { exists s, []. repeat split. apply answer_off; assumption. }
    change (list_eqb (f_packet (r_fsm (rxs s))) (last_own_cv_packet (r_cv (rxs s)))) with (list_eqb (last_bytes s) (last_cv_packet s)).
    destruct (list_eqb (last_bytes s) (last_cv_packet s)) eqn:El; cbn [negb].
    - apply list_eqb_eq in El. pose proof (answer_cv s Ho Hc Ed El) as K. unfold cv_waiting in K |- *. unfold transmit.
      destruct (pom_deque (r_bidi (rxs s))) as [|d q] eqn:Eq.
      + exists s, []. repeat split. unfold waiting, cv_waiting. rewrite Eq. exact K.
      + eexists. exists [d]. split; [reflexivity|]. split; [repeat split|]. exact K.
    - eexists. exists [[0x0F]]. split; [reflexivity|]. split; [repeat split|].
      match goal with |- answer2 s _ (waiting ?x) => change (waiting x) with (waiting s) end. apply answer_ack; try assumption. intros X. apply list_eqb_eq in X. congruence.
  Qed.
  Lemma dyn_answers : forall s, talk (rxs s) -> data_turn s -> exists s' ds, appDyn E s = Ok (tt, s', map ETransmitBiDi ds) /\ steady s s' /\
    answer2 s ds (waiting s').
  Proof.
    intros s Hs Hd. pose proof (answer_data s Hd) as K. destruct (appDyn_run E s Hs) as (buf & _ & ->).
    unfold transmit. unfold data_waiting in K. destruct (dyn_deque (r_bidi (rxs s))) as [|d q] eqn:Eq.
    - exists s, []. repeat split. unfold waiting, data_waiting. rewrite Eq. exact K.
    - eexists. eexists [_]. split; [reflexivity|]. split; [repeat split|]. exact K.
  Qed.

  Lemma biDi2_exact : forall s, talk (rxs s) ->
    (own_packet s -> exists i, decode_instruction_packet (last_bytes s) = Ok i) -> Forall byte (last_bytes s) ->
    exists s' ds, biDiChannel2 E s = Ok (tt, s', map ETransmitBiDi ds) /\ steady s s' /\ answer2 s ds (waiting s').
  Proof.
    intros s Hs Hi Hby. unfold biDiChannel2. rewrite bind_get. cbv zeta.
    change (received (r_addrs (rxs s))) with (last_address s) in *.
    change (if logon_assigned (r_logon (rxs s)) then logon (r_addrs (rxs s)) else primary (r_addrs (rxs s))) with (answering_as s).
    assert (None : forall t, atyp (last_address s) = t -> t <> ATBroadcast -> t <> ATLogon -> ~ In t [ATShort; ATLong] -> exists s' ds,
      (Ok (tt, s, []) : res (unit * st I * list event)) = Ok (tt, s', map ETransmitBiDi ds) /\ steady s s' /\ answer2 s ds (waiting s')).
    { intros t Ht H1 H2 H3. exists s, []. repeat split. apply answer_none; try congruence; intros [X _]; apply H3; congruence. }
    destruct (atyp (last_address s)) eqn:Et;
      try (apply (None _ eq_refl); try discriminate; cbn [In]; intuition discriminate).
    - clear None. pose proof (answer_search s Et) as K. rewrite appTos_run. unfold transmit. unfold search_waiting in K.
      destruct (tos_deque (r_bidi (rxs s))) as [|d q] eqn:Eq.
      + exists s, []. repeat split. unfold waiting, search_waiting. rewrite Eq. exact K.
      + eexists. exists [d]. split; [reflexivity|]. split; [repeat split|]. exact K.
    - clear None. destruct (addr_eqb (last_address s) (answering_as s)) eqn:Ea.
      + assert (Ho : own_packet s) by (split; [rewrite Et; cbn; auto|apply same_spec; exact Ea]).
        destruct (Hi Ho) as (j & Hj). assert (Hc := packet_class s j Hby Hj). change (f_packet (r_fsm (rxs s))) with (last_bytes s). rewrite Hj, ExecProofs.bind_lift.
        destruct j; try (apply dyn_answers; [exact Hs|left; split; [exact Ho|intros X; apply Hc in X; discriminate]]).
        apply pom_answers; [exact Ho|]. apply Hc. reflexivity.
      + assert (Hn : ~ same_address (last_address s) (answering_as s)) by (intros X; apply same_spec in X; congruence).
        change (ch2_consist_enabled (r_conf (rxs s))) with (consist_on s).
        destruct (addr_eqb (last_address s) (consist (r_addrs (rxs s))) && consist_on s) eqn:Ec.
        * apply andb_prop in Ec. destruct Ec as [Ec En]. apply same_spec in Ec. apply dyn_answers; [exact Hs|right].
          split; [rewrite Et; cbn; auto|auto].
        * exists s, []. repeat split. apply answer_none; try congruence; [intros [_ X]; contradiction|].
          intros (_ & _ & X & Y). apply same_spec in X. rewrite X, Y in Ec. discriminate.
    - clear None. destruct (addr_eqb (last_address s) (answering_as s)) eqn:Ea.
      + assert (Ho : own_packet s) by (split; [rewrite Et; cbn; auto|apply same_spec; exact Ea]).
        destruct (Hi Ho) as (j & Hj). assert (Hc := packet_class s j Hby Hj). change (f_packet (r_fsm (rxs s))) with (last_bytes s). rewrite Hj, ExecProofs.bind_lift.
        destruct j; try (apply dyn_answers; [exact Hs|left; split; [exact Ho|intros X; apply Hc in X; discriminate]]).
        apply pom_answers; [exact Ho|]. apply Hc. reflexivity.
      + assert (Hn : ~ same_address (last_address s) (answering_as s)) by (intros X; apply same_spec in X; congruence).
        change (ch2_consist_enabled (r_conf (rxs s))) with (consist_on s).
        destruct (addr_eqb (last_address s) (consist (r_addrs (rxs s))) && consist_on s) eqn:Ec.
        * apply andb_prop in Ec. destruct Ec as [Ec En]. apply same_spec in Ec. apply dyn_answers; [exact Hs|right].
          split; [rewrite Et; cbn; auto|auto].
        * exists s, []. repeat split. apply answer_none; try congruence; [intros [_ X]; contradiction|].
          intros (_ & _ & X & Y). apply same_spec in X. rewrite X, Y in Ec. discriminate.
    - clear None. pose proof (answer_logon s Et) as K. rewrite appLogon2_run by exact Hs. unfold transmit. unfold logon_answers in K.
      destruct (logon_deque (r_logon (rxs s))) as [|d q] eqn:Eq.
      + exists s, []. repeat split. unfold waiting, logon_answers. rewrite Eq. exact K.
      + eexists. exists [skipn 2 d]. split; [reflexivity|]. split; [repeat split|]. exact K.
  Qed.
  Lemma bytes_reached : forall s, reached E s -> Forall byte (last_bytes s).
  Proof. intros s (i & os & es & H). pose proof (sane_run E _ _ _ _ H) as K. open_sane K. exact Hpk. Qed.
  Lemma biDi2_cutout : forall s, reached E s -> cutout s ->
    exists s' ds, biDiChannel2 E s = Ok (tt, s', map ETransmitBiDi ds) /\ steady s s' /\ answer2 s ds (waiting s').
  Proof.
    intros s Hr Hc. apply biDi2_exact; [apply (talk_reached E); exact Hr| |exact (bytes_reached s Hr)].
    intros _. apply packet_decodes. exact (proj1 (proj2 (heard_reached E s Hr Hc))).
  Qed.
  Lemma biDi2_reached : forall s u s' es, reached E s -> biDiChannel2 E s = Ok (u, s', es) ->
    exists ds, es = map ETransmitBiDi ds /\ steady s s' /\ answer2 s ds (waiting s').
  Proof.
    intros s u s' es Hr H. destruct (biDi2_exact s) as (s2 & ds & H2 & H3 & H4).
    - apply (talk_reached E); exact Hr.
    - intros [Ht Ho]. apply same_spec in Ho. unfold biDiChannel2 in H. rewrite bind_get in H. cbv zeta in H.
      change (if logon_assigned (r_logon (rxs s)) then logon (r_addrs (rxs s)) else primary (r_addrs (rxs s))) with (answering_as s) in H.
      change (received (r_addrs (rxs s))) with (last_address s) in H. rewrite Ho in H. unfold last_bytes.
      destruct (decode_instruction_packet (f_packet (r_fsm (rxs s)))) as [j|]; [eauto|]. exfalso.
      destruct (atyp (last_address s)); cbn [In] in Ht; try (intuition discriminate); discriminate H.
    - exact (bytes_reached s Hr).
    - rewrite H2 in H. inversion H; subst. exists ds. auto.
  Qed.

  (** Nothing is sent unless addressed, at any time *)
  Lemma biDi2_addressed : forall s u s' es, talk (rxs s) -> biDiChannel2 E s = Ok (u, s', es) ->
    (exists ds, es = map ETransmitBiDi ds) /\
    (sent es <> [] -> atyp (last_address s) = ATBroadcast \/ atyp (last_address s) = ATLogon \/ own_packet s \/ consist_packet s).
  Proof.
    intros s u s' es Hs H. split.
    { assert (emits (fun e => exists d, e = ETransmitBiDi d) (biDiChannel2 E)) as K by (emits_tac; eauto).
      specialize (K _ _ _ _ H). clear - K. induction K as [|e es [d ->] _ [ds ->]]; [exists []; reflexivity|exists (d :: ds); reflexivity]. }
    intros Hn. unfold biDiChannel2 in H. rewrite bind_get in H. cbv zeta in H.
    change (received (r_addrs (rxs s))) with (last_address s) in *.
    change (if logon_assigned (r_logon (rxs s)) then logon (r_addrs (rxs s)) else primary (r_addrs (rxs s))) with (answering_as s) in H.
    change (ch2_consist_enabled (r_conf (rxs s))) with (consist_on s) in H.
    assert (L : In (atyp (last_address s)) [ATShort; ATLong] -> (if addr_eqb (last_address s) (answering_as s)
      then bind (lift (decode_instruction_packet (f_packet (r_fsm (rxs s))))) (fun i => match i with ICvLong => appPom E | _ => appDyn E end)
      else if addr_eqb (last_address s) (consist (r_addrs (rxs s))) && consist_on s then appDyn E else ret tt) s = Ok (u, s', es) ->
      own_packet s \/ consist_packet s).
    { intros Ht X. destruct (addr_eqb (last_address s) (answering_as s)) eqn:Ea.
      - left. split; [exact Ht|apply same_spec; exact Ea].
      - right. destruct (_ && _) eqn:Ec; [|inversion X; subst; contradiction]. apply andb_prop in Ec. destruct Ec as [Ec En].
        split; [exact Ht|]. split; [intros Y; apply same_spec in Y; congruence|]. split; [apply same_spec; exact Ec|exact En]. }
    destruct (atyp (last_address s)) eqn:Et; auto; try (inversion H; subst; contradiction).
    - right. right. apply L; [cbn; auto|exact H].
    - right. right. apply L; [cbn; auto|exact H].
  Qed.

  (** ** The last packet *)
  Lemma receive_silent : forall l s t u s' es, Rl l s -> completed (OReceive t) l = None -> receive E t s = Ok (u, s', es) ->
    last_address s' = if rejected (OReceive t) l then addr0 else last_address s.
  Proof.
    intros l s t u s' es (HI & Hq & Hf & Ho & Hl) Hc H. rewrite receive_machine in H. cbn [completed] in Hc. cbn [rejected].
    destruct (half_bit t) as [b|] eqn:Et.
    2: { unfold machine in H. rewrite Et in H. inversion H; subst. reflexivity. }
    pose proof (machine_sim (l_heard l) (r_fsm (rxs s)) (full s) b t HI Et) as Hs. cbv zeta in Hs.
    replace (length (l_queue l) =? 31)%nat with (full s) in * by (unfold full; rewrite Hq; reflexivity).
    destruct (machine (full s) (r_fsm (rxs s)) t) as [f a] eqn:Em. cbn [fst snd] in Hs.
    destruct (looked_at (l_heard l ++ [b]) && full s) eqn:El.
    { destruct Hs as (-> & _). inversion H; subst. reflexivity. }
    destruct (reading (l_heard l ++ [b])) as [| |bs] eqn:Er.
    - destruct Hs as [[-> _]|[[->| ->] _]]; [discriminate| |]; inversion H; subst; reflexivity.
    - destruct Hs as (-> & _). inversion H; subst; reflexivity.
    - destruct Hs as (_ & _ & Hs). destruct (valid_packet bs); [discriminate|].
      destruct Hs as (-> & _). inversion H; subst; reflexivity.
  Qed.

  Definition address_heard (p : option (list Z)) : address := match p with Some p => address_of p | None => addr0 end.

  Lemma last_heard_snoc : forall os o l p, last_heard (os ++ [o]) l p =
    match completed o (listen_all os l) with
    | Some q => Some q
    | None => if rejected o (listen_all os l) then None else last_heard os l p
    end.
  Proof. induction os as [|a os IH]; intros o l p; [reflexivity|]. cbn [List.app last_heard]. rewrite IH. reflexivity. Qed.

  Lemma completed_receive : forall o l, is_receive o = false -> completed o l = None /\ rejected o l = false.
  Proof. intros o l H. destruct o; try discriminate; auto. Qed.

  Lemma last_run : forall i os s es, run E os (st0 i) = Ok (tt, s, es) ->
    last_address s = address_heard (last_heard os listener0 None).
  Proof.
    intros i os. induction os as [|o os IH] using rev_ind; intros s es H; [inversion H; subst; reflexivity|].
    apply (run_snoc E) in H. destruct H as (s1 & e1 & b & e2 & Hrun & H). specialize (IH _ _ Hrun). rewrite last_heard_snoc.
    pose proof (run_refines E _ _ _ _ _ (Rl0 i) Hrun) as HR. destruct (is_receive o) eqn:Er.
    - destruct o; try discriminate. cbn [step] in H. apply bind_inv in H. destruct H as (u & s2 & e3 & e4 & H & H2 & _). inversion H2; subst; clear H2.
      destruct (completed (OReceive time) (listen_all os listener0)) as [p|] eqn:Ec.
      + exact (proj1 (completed_took E _ _ _ _ _ _ _ _ _ Hrun Ec H)).
      + rewrite (receive_silent _ _ _ _ _ _ HR Ec H). destruct (rejected _ _); [reflexivity|exact IH].
    - destruct (completed_receive o (listen_all os listener0) Er) as [-> ->]. rewrite <- IH.
      assert (o = OBiDi2 \/ o <> OBiDi2) as [->|Hb] by (destruct o; auto; right; discriminate).
      + cbn [step] in H. apply bind_inv in H. destruct H as (u & s2 & e3 & e4 & H & H2 & _). inversion H2; subst.
        pose proof (ear_biDi2 E _ _ _ _ H) as K. unfold ear in K. unfold last_address. congruence.
      + pose proof (view_step E o Er Hb _ _ _ _ H) as K. unfold logon_view in K. unfold last_address. congruence.
  Qed.
End Answers.
