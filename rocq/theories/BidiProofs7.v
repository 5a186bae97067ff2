(** BiDi: data points leave in the order they were taken; legal transmissions *)
From Verif Require Import Prelude Address Instruction Datagram Packets Backoff RxState Rx ZBits RxLogic RxInv SpecCodec CodecProofs CodecProofs2
  SpecRx RxBitProofs SpecExec ExecProofs SpecConf SpecCv CvProofs SaneProofs SpecLogon LogonProofs LogonProofs2 LogonProofs3 LogonProofs4 SpecBidi BidiProofs BidiProofs2 BidiProofs3 BidiProofs4 BidiProofs5 BidiProofs6.

Section Fifo.
  Context {I : Type} (E : Env I).
  Implicit Types s : st I.

  Lemma own_dec : forall s, own_packet s \/ ~ own_packet s.
  Proof.
    intros s. unfold own_packet. destruct (addr_eqb (last_address s) (answering_as s)) eqn:Ea.
    - apply same_spec in Ea. destruct (atyp (last_address s)); cbn [In]; intuition discriminate.
    - right. intros [_ H]. apply same_spec in H. congruence.
  Qed.
  Lemma consist_dec : forall s, consist_packet s \/ ~ consist_packet s.
  Proof.
    intros s. unfold consist_packet. destruct (addr_eqb (last_address s) (consist (r_addrs (rxs s)))) eqn:Ea.
    - apply same_spec in Ea. destruct (addr_eqb (last_address s) (answering_as s)) eqn:Eb.
      + apply same_spec in Eb. right. intros (_ & H & _). contradiction.
      + assert (~ same_address (last_address s) (answering_as s)) by (rewrite <- same_spec; congruence).
        destruct (consist_on s); [|right; intros (_ & _ & _ & H'); discriminate].
        destruct (atyp (last_address s)); cbn [In]; intuition discriminate.
    - right. intros (_ & _ & H & _). apply same_spec in H. congruence.
  Qed.
  Lemma turn_dec : forall s, data_turn s \/ ~ data_turn s.
  Proof.
    intros s. unfold data_turn. destruct (consist_dec s) as [H|H]; [auto|]. destruct (own_dec s) as [K|K]; [|tauto].
    assert (for_cvs s \/ ~ for_cvs s) by (unfold for_cvs; cbv zeta; lia). tauto.
  Qed.

  Definition payload s : list (list Z) := match data_waiting s with [] => [] | _ => [concat (firstn 2 (data_waiting s))] end.
  Lemma answer_turn : forall s ds w, answer2 s ds w ->
    (data_turn s -> ds = payload s /\ snd (fst (fst w)) = skipn 2 (data_waiting s)) /\
    (~ data_turn s -> snd (fst (fst w)) = data_waiting s).
  Proof.
    intros s ds w H.
    assert (B : data_turn s -> In (atyp (last_address s)) [ATShort; ATLong]) by (intros [[[X _] _]|[X _]]; exact X).
    assert (O : own_packet s -> for_cvs s -> ~ data_turn s) by (intros [_ X] Y [[_ Z]|(_ & Z & _)]; contradiction).
    destruct H as [H|H1 H2 H3|H1 H2 H3 H4|H1 H2 H3 H4|H|H|H1 H2 H3 H4]; (split; [intros T|intros T]); try reflexivity; try contradiction; cbn [fst snd waiting];
      try (exfalso; specialize (B T); rewrite H in B; cbn [In] in B; intuition discriminate);
      try (exfalso; exact (O H1 H2 T)).
    - unfold payload. auto.
    - exfalso. destruct T as [[T _]|T]; contradiction.
  Qed.

  Definition dynq (r : rx) := (dyn_deque (r_bidi r), block_dyn (r_bidi r)).
  Lemma other_data : forall o s u s' es, step E o s = Ok (u, s', es) -> (forall ds, o <> ODatagram ds) -> o <> OBiDi2 ->
    data_waiting s' = data_waiting s /\ data_blocked s' = data_blocked s.
  Proof.
    intros o s u s' es H N1 N2. assert (K : dynq (rxs s') = dynq (rxs s)).
    { destruct o; try (exfalso; eapply N1; reflexivity); try contradiction; cbn [step] in H;
        try (lazymatch type of H with execute _ _ = _ => fail | _ => idtac end; apply bind_inv in H; destruct H as (u' & s1 & e3 & e4 & H & H2 & _); inversion H2; subst; clear H2).
      - assert (keeps dynq (init E)) as K by keeps_tac. exact (K _ _ _ _ H).
      - assert (keeps dynq (@enable I)) as K by keeps_tac. exact (K _ _ _ _ H).
      - assert (keeps dynq (@disable I)) as K by keeps_tac. exact (K _ _ _ _ H).
      - assert (keeps dynq (receive E time)) as K by keeps_tac. exact (K _ _ _ _ H).
      - assert (keeps dynq (execute E)) as K by keeps_tac. exact (K _ _ _ _ H).
      - assert (keeps dynq (biDiChannel1 E)) as K by keeps_tac. exact (K _ _ _ _ H).
      - destruct (nth_error (pending s) i) as [c|]; [|inversion H; subst; reflexivity].
        assert (keeps dynq (bind (run_cb E c v) (fun _ => ret false))) as K by keeps_tac. exact (K _ _ _ _ H). }
    unfold dynq in K. injection K as K1 K2. auto.
  Qed.

  Lemma spoken_data_snoc : forall (ms : list (moment (I := I))) ds m part, spoken_data ms ds ->
    (match m with
     | (s, OBiDi2, es) => (data_turn s /\ part = sent es) \/ (~ data_turn s /\ part = [])
     | _ => part = []
     end) -> spoken_data (ms ++ [m]) (ds ++ part).
  Proof.
    intros ms ds m part (parts & -> & F) H. exists (parts ++ [part]). rewrite concat_app. cbn [concat]. rewrite app_nil_r. split; [reflexivity|].
    apply Forall2_app; [exact F|]. constructor; [exact H|constructor].
  Qed.
  Lemma taken_snoc : forall s o es (ms : list (moment (I := I))) xs, (forall ds, o <> ODatagram ds) -> taken ms xs -> taken (ms ++ [(s, o, es)]) xs.
  Proof.
    intros s o es ms xs N. induction 1; cbn [List.app]; [apply taken_skip; [exact N|constructor]|apply taken_skip; assumption|apply taken_more; assumption].
  Qed.
  Lemma taken_last : forall s ds es new (ms : list (moment (I := I))) xs, Forall2 says_point (accepted s ds) new -> taken ms xs ->
    taken (ms ++ [(s, ODatagram ds, es)]) (xs ++ new).
  Proof.
    intros s ds es new ms xs F. induction 1; cbn [List.app].
    - rewrite <- (app_nil_r new). apply taken_more; [exact F|constructor].
    - apply taken_skip; assumption.
    - rewrite <- app_assoc. apply taken_more; assumption.
  Qed.

  Definition fifo os s0 s : Prop := exists groups, spoken_data (moments E os s0) (map (@concat Z) groups) /\
    Forall (fun g => (1 <= length g <= 2)%nat) groups /\ taken (moments E os s0) (concat groups ++ data_waiting s).

  Lemma fifo_run : forall i os s es, codable os -> run E os (st0 i) = Ok (tt, s, es) -> fifo os (st0 i) s.
  Proof.
    intros i os. induction os as [|o os IH] using rev_ind; intros s es Hc H.
    { inversion H; subst. exists []. split; [exists []; split; [reflexivity|constructor]|]. split; [constructor|constructor]. }
    apply (run_snoc E) in H. destruct H as (s1 & e1 & b & e2 & Hrun & H).
    assert (Hcod : codable os) by (intros ds X; apply Hc; apply in_or_app; auto).
    destruct (IH _ _ Hcod Hrun) as (groups & S1 & G1 & T1). pose proof (moments_snoc E _ _ _ _ _ _ _ _ Hrun H) as Hm. unfold fifo. rewrite Hm.
    assert (Hr : reached E s1) by (exists i, os, e1; exact Hrun).
    assert (D : (exists ds, o = ODatagram ds) \/ o = OBiDi2 \/ ((forall ds, o <> ODatagram ds) /\ o <> OBiDi2)).
    { destruct o; try (right; right; split; [intros x|]; discriminate); eauto. }
    destruct D as [[ds ->]|[->|[D1 D2]]].
    - pose proof (talk_reached E _ Hr) as Ht. open_talk Ht. pose proof (quality_run E _ _ _ _ Hrun) as Hq.
      destruct (datagram_run s1 ds) as (new & F & R); [apply Hc; apply in_or_app; right; left; reflexivity|exact Hdl|unfold byte; lia|].
      cbn [step] in H. unfold bind in H. rewrite R in H. cbn [ret] in H. inversion H; subst s. clear H.
      exists groups. split; [|split; [exact G1|]].
      + rewrite <- (app_nil_r (map _ groups)). apply spoken_data_snoc; [exact S1|reflexivity].
      + change (data_waiting (with_data (data_waiting s1 ++ new) (with_block (blocked_after s1) s1))) with (data_waiting s1 ++ new).
        rewrite app_assoc. apply taken_last; assumption.
    - cbn [step] in H. apply bind_inv in H. destruct H as (u & s2 & e3 & e4 & H & H2 & ->). inversion H2; subst. clear H2. rewrite app_nil_r in *.
      destruct (biDi2_reached E _ _ _ _ Hr H) as (ds & -> & _ & Ha). destruct (answer_turn _ _ _ Ha) as [A1 A2].
      destruct (turn_dec s1) as [T|T].
      + destruct (A1 T) as [-> Hw]. change (data_waiting s = skipn 2 (data_waiting s1)) in Hw. unfold payload in *.
        destruct (data_waiting s1) as [|d q] eqn:Ed.
        * exists groups. rewrite <- (app_nil_r (map _ groups)). split; [apply spoken_data_snoc; [exact S1|left; auto]|]. split; [exact G1|].
          rewrite Hw. cbn [skipn]. apply taken_snoc; [discriminate|exact T1].
        * exists (groups ++ [firstn 2 (d :: q)]). rewrite map_app, concat_app. cbn [map concat]. rewrite app_nil_r. split; [|split].
          { apply spoken_data_snoc; [exact S1|]. left. split; [exact T|]. reflexivity. }
          { apply Forall_app. split; [exact G1|]. constructor; [|constructor]. rewrite firstn_length. cbn [length]. lia. }
          { rewrite Hw, <- app_assoc, firstn_skipn. apply taken_snoc; [discriminate|exact T1]. }
      + pose proof (A2 T) as Hw. change (data_waiting s = data_waiting s1) in Hw. exists groups. rewrite <- (app_nil_r (map _ groups)).
        split; [apply spoken_data_snoc; [exact S1|right; auto]|]. split; [exact G1|]. rewrite Hw. apply taken_snoc; [discriminate|exact T1].
    - destruct (other_data _ _ _ _ _ H D1 D2) as [Hw _]. exists groups. rewrite <- (app_nil_r (map _ groups)).
      split; [apply spoken_data_snoc; [exact S1|destruct o; try reflexivity; contradiction]|]. split; [exact G1|]. rewrite Hw. apply taken_snoc; [exact D1|exact T1].
  Qed.

  (** ** Legal transmissions *)
  Lemma shaped_legal : forall n d, shaped n d -> length d = n /\ Forall legal d.
  Proof. auto. Qed.
  Lemma sends1 : forall s, reached E s -> exists s' es, biDiChannel1 E s = Ok (tt, s', es) /\ Forall (lawful 2 2) (sent es) /\ (length (sent es) <= 1)%nat.
  Proof.
    intros s Hr. pose proof (talk_reached E _ Hr) as Ht. destruct (biDi1_exact E s Ht) as (s' & ds & B & _ & _ & _ & B1 & B2 & B3).
    exists s', (map ETransmitBiDi ds). split; [exact B|]. rewrite sent_map. open_talk Ht.
    assert (to_locos s \/ ~ to_locos s) as [Hd|Hd] by (unfold to_locos; cbn [In]; destruct (atyp (last_address s)); intuition discriminate).
    - destruct (B1 Hd) as [-> _]. unfold addresses_waiting. destruct Had as [|d q [L1 L2] _]; cbn [firstn length]; split; try lia; constructor; [|constructor].
      split; [lia|exact L2].
    - assert (atyp (last_address s) = ATLogon \/ atyp (last_address s) <> ATLogon) as [Hl|Hl] by (destruct (atyp (last_address s)); auto; right; discriminate).
      + destruct (B2 Hl) as [-> _]. unfold logon_answers. destruct Hlg as [|d q [L1 L2] _]; [split; [constructor|cbn; lia]|]. change (firstn 1 (d :: q)) with [d]. cbn [map length]. split; [|lia]. constructor; [|constructor].
        split; [rewrite firstn_length; lia|]. rewrite <- (firstn_skipn 2 d) in L2. apply Forall_app in L2. apply L2.
      + destruct (B3 Hd Hl) as [_ ->]. split; [constructor|cbn; lia].
  Qed.
  Lemma ack_legal : legal 0x0F. Proof. split; [unfold byte; lia|reflexivity]. Qed.
  Lemma answer2_lawful : forall s ds w, talk (rxs s) -> answer2 s ds w -> Forall (lawful 1 6) ds /\ (length ds <= 1)%nat.
  Proof.
    intros s ds w Ht H. open_talk Ht. unfold cv_waiting, data_waiting, search_waiting, logon_answers in *.
    assert (One : forall n q, Forall (shaped n) q -> (1 <= n <= 6)%nat -> Forall (lawful 1 6) (firstn 1 q) /\ (length (firstn 1 q) <= 1)%nat).
    { intros n q F Hn. destruct F as [|d q [L1 L2] _]; cbn [firstn length]; split; try lia; constructor; [|constructor]. split; [lia|exact L2]. }
    destruct H as [H|H1 H2 H3|H1 H2 H3 H4|H1 H2 H3 H4|H|H|H1 H2 H3 H4].
    - exact (One 6%nat _ Hto ltac:(lia)).
    - split; [constructor|cbn; lia].
    - split; [|cbn; lia]. constructor; [|constructor]. split; [cbn; lia|]. constructor; [exact ack_legal|constructor].
    - exact (One 2%nat _ Hpo ltac:(lia)).
    - unfold data_waiting. destruct Hdy as [|d q [L1 L2] Hq]; [split; [constructor|cbn; lia]|].
      split; [|cbn; lia]. constructor; [|constructor]. destruct Hq as [|d2 q [M1 M2] _]; cbn [firstn concat]; rewrite app_nil_r.
      + split; [lia|exact L2].
      + split; [rewrite app_length; lia|apply Forall_app; auto].
    - unfold logon_answers. destruct Hlg as [|d q [L1 L2] _]; [split; [constructor|cbn; lia]|]. change (firstn 1 (d :: q)) with [d]. cbn [map length]. split; [|lia]. constructor; [|constructor].
      split; [rewrite skipn_length; lia|]. rewrite <- (firstn_skipn 2 d) in L2. apply Forall_app in L2. apply L2.
    - split; [constructor|cbn; lia].
  Qed.
  Lemma sends2 : forall s u s' es, reached E s -> biDiChannel2 E s = Ok (u, s', es) -> Forall (lawful 1 6) (sent es) /\ (length (sent es) <= 1)%nat.
  Proof.
    intros s u s' es Hr H. destruct (biDi2_reached E _ _ _ _ Hr H) as (ds & -> & _ & Ha). rewrite sent_map.
    exact (answer2_lawful _ _ _ (talk_reached E _ Hr) Ha).
  Qed.

  Definition mute (e : event) : Prop := match e with ETransmitBiDi _ => False | _ => True end.
  Lemma mute_sent : forall es, Forall mute es -> sent es = [].
  Proof. induction 1 as [|e es He _ IH]; [reflexivity|]. destruct e; try exact IH; destruct He. Qed.
  Lemma mute_dyn_all : forall ds, emits mute (@dyn_all I ds).
  Proof. induction ds as [|d ds IH]; [emits_tac|]. apply emits_bind; [emits_tac|intros _; exact IH]. Qed.
  Lemma mute_step : forall o s u s' es, step E o s = Ok (u, s', es) -> o <> OBiDi1 -> o <> OBiDi2 -> sent es = [].
  Proof.
    intros o s u s' es H N1 N2. apply mute_sent. destruct o; try contradiction; cbn [step] in H;
      try (lazymatch type of H with execute _ _ = _ => fail | _ => idtac end; apply bind_inv in H; destruct H as (u' & s1 & e3 & e4 & H & H2 & ->); inversion H2; subst; clear H2; rewrite app_nil_r).
    - assert (emits mute (init E)) as K by (emits_tac; exact Logic.I). exact (K _ _ _ _ H).
    - assert (emits mute (@enable I)) as K by (emits_tac; exact Logic.I). exact (K _ _ _ _ H).
    - assert (emits mute (@disable I)) as K by (emits_tac; exact Logic.I). exact (K _ _ _ _ H).
    - assert (emits mute (receive E time)) as K by (emits_tac; exact Logic.I). exact (K _ _ _ _ H).
    - assert (emits mute (execute E)) as K by (emits_tac; exact Logic.I). exact (K _ _ _ _ H).
    - assert (emits mute (@datagram I ds)) as K; [|exact (K _ _ _ _ H)].
      unfold datagram. apply emits_bind; [apply emits_get|intros r].
      apply emits_bind; [emits_tac|intros _]. apply emits_bind; [apply emits_get|intros r']. destruct (block_dyn _); [apply emits_ret|apply mute_dyn_all].
    - destruct (nth_error (pending s) i) as [c|]; [|inversion H; subst; constructor].
      assert (emits mute (bind (run_cb E c v) (fun _ => ret false))) as K by (emits_tac; exact Logic.I). exact (K _ _ _ _ H).
  Qed.
End Fifo.
