(** BiDi: which addresses channel 1 tells *)
From Verif Require Import Prelude Address Instruction Datagram Packets Backoff RxState Rx ZBits RxLogic RxInv SpecCodec CodecProofs CodecProofs2
  SpecRx RxBitProofs SpecExec ExecProofs SpecConf SpecCv CvProofs SaneProofs SpecLogon LogonProofs LogonProofs2 LogonProofs3 LogonProofs4 SpecBidi BidiProofs BidiProofs2 BidiProofs3.

Lemma id_carries : forall i id v, 0 <= id < 16 -> 0 <= v < 2 ^ id_bits i ->
  exists cs, rbind (make_datagram_id i id v) encode_datagram = Ok cs /\ carries (datagram_size i) (id * 2 ^ id_bits i + v) cs.
Proof.
  intros i id v Hi Hv. rewrite make_datagram_id_spec by assumption. cbn [rbind].
  destruct (encode_datagram_spec (base64 (datagram_size i) (id * 2 ^ id_bits i + v)) (base64_digits _ _)) as (cs & H1 & H2 & _). eauto.
Qed.
Lemma coded_decode : forall ds cs, coded ds cs -> decode_datagram cs = ds.
Proof.
  assert (forallb (fun cd => list_eqb (decode_datagram [fst cd]) [snd cd]) code_words = true) as H by (vm_compute; reflexivity).
  rewrite forallb_forall in H. induction 1 as [|d ds c cs Hin Hc IH]; [reflexivity|].
  specialize (H _ Hin). apply list_eqb_eq in H. cbn [fst snd] in H. change (decode_datagram (c :: cs)) with (decode_datagram [c] ++ decode_datagram cs).
  rewrite H, IH. reflexivity.
Qed.
Lemma carries_reads : forall n v cs, (n <= 10)%nat -> 0 <= v < 64 ^ Z.of_nat n -> carries n v cs -> make_data (decode_datagram cs) = Ok v.
Proof.
  intros n v cs Hn Hv H. rewrite (coded_decode _ _ H). rewrite make_data_spec; [|apply base64_digits|rewrite base64_length; exact Hn].
  rewrite from_base64_mod, Z.mod_small by exact Hv. reflexivity.
Qed.

Lemma tells_range : forall ad a h l, 0 <= aval a < 16384 -> tells ad a h l -> byte h /\ byte l.
Proof.
  intros ad a h l Ha H. unfold byte. inversion H; subst; [destruct (arev _)| |];
    Z.div_mod_to_equations; lia.
Qed.
Lemma tells_reading : forall ad a h l, 0 <= aval a < 16384 -> tells ad a h l ->
  (same_address a (consist ad) -> reading_of h l = Member (aval a mod 128) (arev (consist ad))) /\
  (~ same_address a (consist ad) -> reading_of h l = Loco (aval a)).
Proof.
  intros ad a h l Ha H. unfold reading_of. inversion H as [K|K L|K L]; subst; (split; [intros X|intros X]); try contradiction.
  - change (96 =? 96) with true. cbn iota. pose proof (Z.mod_pos_bound (aval a) 128 ltac:(lia)) as B. remember (aval a mod 128) as m. f_equal.
    + destruct (arev _); Z.div_mod_to_equations; lia.
    + destruct (arev _); lia.
  - reflexivity.
  - replace (128 + aval a / 256 =? 96) with false by (Z.div_mod_to_equations; lia).
    replace (128 + aval a / 256 <? 128) with false by (Z.div_mod_to_equations; lia). f_equal. Z.div_mod_to_equations; lia.
Qed.

Section One.
  Context {I : Type} (E : Env I).
  Implicit Types s : st I.

  Lemma adr_pair : forall r a, 0 <= aval a < 16384 -> exists hi lo, adrHigh r a = Ok hi /\ adrLow r a = Ok lo /\ address_pair (r_addrs r) a hi lo.
  Proof.
    intros r a Ha. unfold address_pair.
    assert (exists h l, tells (r_addrs r) a h l /\
      h = (if addr_eqb a (consist (r_addrs r)) then 0x60 else if aval a <? 128 then 0 else Z.lor 0x80 (Z.shiftr (Z.land (aval a) 0x3F00) 8)) /\
      l = (if addr_eqb a (consist (r_addrs r)) then Z.lor (Z.shiftl (Z.b2z (arev (consist (r_addrs r)))) 7) (Z.land (aval (consist (r_addrs r))) 0x7F)
           else Z.land (aval a) 0xFF)) as (h & l & Ht & Hh & Hl).
    { destruct (addr_eqb a (consist (r_addrs r))) eqn:Es.
      - apply same_spec in Es. exists 96. eexists. split; [exact (tells_consist _ _ Es)|]. split; [reflexivity|].
        destruct Es as [Ev _]. rewrite <- Ev. rewrite Z.shiftl_mul_pow2 by lia. change 0x7F with (2 ^ 7 - 1). rewrite land_mask by lia. rewrite lor_add by (try (pose proof (Z.mod_pos_bound (aval a) (2 ^ 7))); lia).
        destruct (arev _); reflexivity.
      - assert (~ same_address a (consist (r_addrs r))) as Hn by (rewrite <- same_spec; congruence).
        change 0xFF with (2 ^ 8 - 1). rewrite land_mask by lia.
        destruct (Z.ltb_spec (aval a) 128).
        + exists 0, (aval a). split; [constructor; auto|]. split; [reflexivity|]. rewrite Z.mod_small; [reflexivity|]. change (2 ^ 8) with 256. lia.
        + do 2 eexists. split; [exact (tells_long _ _ Hn H)|]. split; [|reflexivity].
          change 0x3F00 with (Z.shiftl (2 ^ 6 - 1) 8). rewrite shiftr_land_field by lia.
          change 0x80 with (2 * 2 ^ 6). rewrite lor_add by lia. rewrite Z.mod_small; [reflexivity|]. change (2 ^ 8) with 256. change (2 ^ 6) with 64. Z.div_mod_to_equations; lia. }
    destruct (tells_range _ _ _ _ Ha Ht) as [Bh Bl]. unfold byte in Bh, Bl.
    destruct (id_carries B12 1 h) as (hi & H1 & H2); [lia|cbn; lia|]. destruct (id_carries B12 2 l) as (lo & H3 & H4); [lia|cbn; lia|].
    exists hi, lo. unfold adrHigh, adrLow. rewrite <- Hh, <- Hl. split; [exact H1|]. split; [exact H3|]. exists h, l. auto.
  Qed.

  (** [grows s w]: [w] waits in channel 1 after a packet is executed in [s] *)
  Lemma adr_grows : forall s, sane (rxs s) -> exists s', adr s = Ok (tt, s', []) /\ grows s (addresses_waiting s').
  Proof.
    intros s Hs. open_sane Hs. unfold adr, grows, channel1_on, addresses_waiting. rewrite bind_get. cbv zeta.
    destruct (ch1_addr_enabled (r_conf (rxs s))); cbn [negb orb andb]; [|exists s; auto].
    destruct (length (adr_deque (r_bidi (rxs s))) =? 0)%nat eqn:Eb; cbn [negb]; [|exists s; auto]. apply Nat.eqb_eq, length_zero_iff_nil in Eb.
    assert (K : forall a, 0 <= aval a < 16384 -> exists s', bind (lift (adrHigh (rxs s) a)) (fun hi => bind (lift (adrLow (rxs s) a)) (fun lo =>
      modify (I := I) (set_adr_deque (adr_deque (r_bidi (rxs s)) ++ [hi; lo])))) s = Ok (tt, s', []) /\
      exists hi lo, address_pair (r_addrs (rxs s)) a hi lo /\ adr_deque (r_bidi (rxs s')) = [hi; lo]).
    { intros a Ha. destruct (adr_pair (rxs s) a Ha) as (hi & lo & -> & -> & H). rewrite !ExecProofs.bind_lift. eexists. split; [reflexivity|].
      exists hi, lo. split; [exact H|]. cbn. rewrite Eb. reflexivity. }
    unfold active. destruct (Z.eqb_spec (aval (logon (r_addrs (rxs s)))) 0); cbn [negb]; [|apply K; assumption].
    destruct (Z.eqb_spec (aval (consist (r_addrs (rxs s)))) 0); [apply K; assumption|].
    replace (0 <? aval (consist (r_addrs (rxs s)))) with true by lia. cbn [andb].
    destruct (aval (consist (r_addrs (rxs s))) <? 128); [apply K; assumption|]. exists s. auto.
  Qed.

  Definition told_q (r : rx) := adr_deque (r_bidi r).
  Lemma q_store : keeps told_q (logonStore E). Proof. keeps_tac. Qed.
  Lemma q_qos : keeps told_q (@updateQos I). Proof. keeps_tac. Qed.
  Lemma q_tp : keeps told_q (updateTimepoints E). Proof. keeps_tac. Qed.
  Lemma q_command : keeps told_q (executeCommand E). Proof. keeps_tac. Qed.
  Lemma q_pop : keeps told_q (@popFront I). Proof. keeps_tac. Qed.
  Lemma q_receive : forall t, keeps told_q (receive E t). Proof. intros; keeps_tac. Qed.
  Lemma q_cb : forall c v, keeps told_q (run_cb E c v). Proof. intros; keeps_tac. Qed.
  Lemma q_init : keeps told_q (init E). Proof. keeps_tac. Qed.
  Lemma q_enable : keeps told_q (@enable I). Proof. keeps_tac. Qed.
  Lemma q_disable : keeps told_q (@disable I). Proof. keeps_tac. Qed.
  Lemma q_biDi2 : keeps told_q (biDiChannel2 E). Proof. keeps_tac. Qed.
  Lemma q_dyn_all : forall ds, keeps told_q (@dyn_all I ds).
  Proof. induction ds as [|d ds IH]; [keeps_tac|]. apply keeps_bind; [keeps_tac|intros _; exact IH]. Qed.
  Lemma q_datagram : forall ds, keeps told_q (@datagram I ds).
  Proof.
    intros ds. unfold datagram. apply keeps_bind; [apply keeps_get|intros r].
    apply keeps_bind; [keeps_tac|intros _]. apply keeps_bind; [apply keeps_get|intros r']. destruct (block_dyn _); [apply keeps_ret|apply q_dyn_all].
  Qed.

  Lemma not_ready : forall s b s' es, execute E s = Ok (b, s', es) -> (forall p q, ~ ready s p q) -> s' = s /\ es = [] /\ b = false.
  Proof.
    intros s b s' es H Hn. unfold execute in H. rewrite bind_get in H.
    destruct (f_packet_end (r_fsm (rxs s))) eqn:Ef; [cbn [orb] in H; inversion H; auto|].
    destruct (r_deque (rxs s)) as [|p q] eqn:Ed; [cbn in H; inversion H; auto|]. exfalso. apply (Hn p q). split; assumption.
  Qed.

  Lemma execute_grows : forall s p q b s' es, sane (rxs s) -> ready s p q -> execute E s = Ok (b, s', es) -> grows s (addresses_waiting s').
  Proof.
    intros s p q b s' es Hs [Hf Hd] H. unfold execute in H. rewrite bind_get in H. rewrite Hf, Hd in H. cbn [length Nat.eqb orb] in H.
    destruct (adr_grows s Hs) as (s1 & Ha & Hg).
    apply bind_inv in H. destruct H as (u1 & t1 & f1 & f2 & H1 & H & _). rewrite Ha in H1. assert (t1 = s1) as -> by congruence. clear H1.
    apply bind_inv in H. destruct H as (u2 & t2 & f3 & f4 & H2 & H & _).
    apply bind_inv in H. destruct H as (u3 & t3 & f5 & f6 & H3 & H & _).
    apply bind_inv in H. destruct H as (u4 & t4 & f7 & f8 & H4 & H & _).
    apply bind_inv in H. destruct H as (u5 & t5 & f9 & f10 & H5 & H & _).
    apply bind_inv in H. destruct H as (u6 & t6 & f11 & f12 & H6 & H7 & _).
    inversion H7; subst. apply q_store in H2. apply q_qos in H3. apply q_tp in H4. apply q_command in H5. apply q_pop in H6.
    unfold addresses_waiting in *. unfold told_q in *. rewrite H6, H5, H4, H3, H2. exact Hg.
  Qed.

  (** Which calls change the queue *)
  Lemma other_q : forall o s u s' es, step E o s = Ok (u, s', es) -> o <> OExecute -> o <> OBiDi1 -> addresses_waiting s' = addresses_waiting s.
  Proof.
    intros o s u s' es H H1 H2. unfold addresses_waiting. destruct o; try contradiction; cbn [step] in H.
    - apply bind_inv in H. destruct H as (? & ? & ? & ? & H & H' & _). inversion H'; subst. exact (q_init _ _ _ _ H).
    - apply bind_inv in H. destruct H as (? & ? & ? & ? & H & H' & _). inversion H'; subst. exact (q_enable _ _ _ _ H).
    - apply bind_inv in H. destruct H as (? & ? & ? & ? & H & H' & _). inversion H'; subst. exact (q_disable _ _ _ _ H).
    - apply bind_inv in H. destruct H as (? & ? & ? & ? & H & H' & _). inversion H'; subst. exact (q_receive _ _ _ _ _ H).
    - apply bind_inv in H. destruct H as (? & ? & ? & ? & H & H' & _). inversion H'; subst. exact (q_datagram _ _ _ _ _ H).
    - apply bind_inv in H. destruct H as (? & ? & ? & ? & H & H' & _). inversion H'; subst. exact (q_biDi2 _ _ _ _ H).
    - destruct (nth_error (pending s) i) as [c|]; [|inversion H; subst; reflexivity].
      apply bind_inv in H. destruct H as (? & ? & ? & ? & H & H' & _). inversion H'; subst. exact (q_cb _ _ _ _ _ _ H).
  Qed.

  (** ** Everything told *)
  Lemma moments_snoc : forall os s0 s1 e1 o b s' e2, run E os s0 = Ok (tt, s1, e1) -> step E o s1 = Ok (b, s', e2) ->
    moments E (os ++ [o]) s0 = moments E os s0 ++ [(s1, o, e2)].
  Proof.
    induction os as [|x os IH]; intros s0 s1 e1 o b s' e2 H1 H2.
    - cbn in H1. inversion H1; subst. cbn. rewrite H2. reflexivity.
    - cbn [run] in H1. apply bind_inv in H1. destruct H1 as (v & t & f1 & f2 & H1 & H3 & ->). cbn [List.app moments]. rewrite H1.
      rewrite (IH _ _ _ _ _ _ _ H3 H2). reflexivity.
  Qed.
  Lemma spoken1_app : forall (a b : list (moment (I := I))), spoken1 (a ++ b) = spoken1 a ++ spoken1 b.
  Proof. intros. apply flat_map_app. Qed.
  Lemma told_snoc : forall m (ms : list (moment (I := I))) ds, told ms ds -> told (ms ++ [m]) ds.
  Proof.
    intros m. induction 1; cbn [List.app]; [|apply told_skip; assumption|eapply told_pair; eassumption].
    apply told_skip. constructor.
  Qed.
  Lemma told_more : forall (ms : list (moment (I := I))) ds, told ms ds -> forall s p q es a hi lo, ready s p q -> channel1_on s = true ->
      active (r_addrs (rxs s)) = Some a -> address_pair (r_addrs (rxs s)) a hi lo -> told (ms ++ [(s, OExecute, es)]) (ds ++ [hi; lo]).
  Proof.
    intros ms ds. induction 1; intros; cbn [List.app]; [|apply told_skip; eauto|eapply told_pair; eauto].
    eapply told_pair; eauto. constructor.
  Qed.

  Lemma sent_map : forall ds, sent (map ETransmitBiDi ds) = ds.
  Proof. induction ds as [|d ds IH]; [reflexivity|]. cbn. f_equal. exact IH. Qed.

  Lemma told_step : forall s0 os s1 e1 o b s' e2, sane (rxs s1) -> talk (rxs s1) -> run E os s0 = Ok (tt, s1, e1) -> step E o s1 = Ok (b, s', e2) ->
    told (moments E os s0) (spoken1 (moments E os s0) ++ addresses_waiting s1) ->
    told (moments E (os ++ [o]) s0) (spoken1 (moments E (os ++ [o]) s0) ++ addresses_waiting s').
  Proof.
    intros s0 os s1 e1 o b s' e2 Hs Ht H1 H2 H. rewrite (moments_snoc _ _ _ _ _ _ _ _ H1 H2), spoken1_app.
    assert (D : o = OExecute \/ o = OBiDi1 \/ (o <> OExecute /\ o <> OBiDi1)) by (destruct o; intuition discriminate).
    destruct D as [->|[->|[D1 D2]]].
    - cbn [spoken1 flat_map]. rewrite !app_nil_r. cbn [step] in H2.
      destruct (f_packet_end (r_fsm (rxs s1))) eqn:Ef; [|destruct (r_deque (rxs s1)) as [|p q] eqn:Ed].
      + apply not_ready in H2; [|intros p q [X _]; congruence]. destruct H2 as (-> & _). apply told_snoc. exact H.
      + apply not_ready in H2; [|intros p q [_ X]; congruence]. destruct H2 as (-> & _). apply told_snoc. exact H.
      + assert (ready s1 p q) as Hr by (split; assumption). pose proof (execute_grows _ _ _ _ _ _ Hs Hr H2) as Hg. unfold grows in Hg.
        destruct (channel1_on s1) eqn:Ec; cbn [andb] in Hg; [|rewrite Hg; apply told_snoc; exact H].
        destruct (length (addresses_waiting s1) =? 0)%nat eqn:El; [|rewrite Hg; apply told_snoc; exact H].
        destruct (active (r_addrs (rxs s1))) as [a|] eqn:Ea; [|rewrite Hg; apply told_snoc; exact H].
        destruct Hg as (hi & lo & Hp & ->). apply Nat.eqb_eq, length_zero_iff_nil in El. rewrite El, app_nil_r in H.
        exact (told_more _ _ H _ _ _ _ _ _ _ Hr Ec Ea Hp).
    - cbn [step] in H2. destruct (biDi1_exact E s1 Ht) as (t & ds & B & _ & _ & _ & B1 & B2 & B3).
      unfold bind in H2. rewrite B in H2. cbn [ret] in H2. inversion H2; subst s' e2. clear H2.
      cbn [spoken1 flat_map]. rewrite !app_nil_r, sent_map.
      destruct (atype_eqb (atyp (last_address s1)) ATLogon) eqn:Et.
      + assert (atyp (last_address s1) = ATLogon) as Hl by (destruct (atyp (last_address s1)); (discriminate || reflexivity)).
        destruct (B2 Hl) as [_ ->]. rewrite app_nil_r. apply told_snoc. exact H.
      + assert (atyp (last_address s1) <> ATLogon) as Hl by (intros X; rewrite X in Et; discriminate).
        assert (to_locos s1 \/ ~ to_locos s1) as [Hd|Hd].
        { unfold to_locos. cbn [In]. destruct (atyp (last_address s1)); intuition discriminate. }
        * destruct (B1 Hd) as [-> ->]. apply told_snoc. rewrite <- app_assoc. destruct (addresses_waiting s1); exact H.
        * destruct (B3 Hd Hl) as [-> ->]. rewrite app_nil_r. apply told_snoc. exact H.
    - rewrite (other_q _ _ _ _ _ H2 D1 D2). replace (spoken1 [(s1, o, e2)]) with (@nil (list Z)) by (destruct o; try contradiction; reflexivity).
      rewrite app_nil_r. apply told_snoc. exact H.
  Qed.

  Lemma told_run : forall i os s es, run E os (st0 i) = Ok (tt, s, es) ->
    told (moments E os (st0 i)) (spoken1 (moments E os (st0 i)) ++ addresses_waiting s).
  Proof.
    intros i os. induction os as [|o os IH] using rev_ind; intros s es H.
    - cbn in H. inversion H; subst. cbn. constructor.
    - apply run_snoc in H. destruct H as (s1 & e1 & b & e2 & H1 & H2).
      eapply told_step; [exact (sane_run E _ _ _ _ H1)|apply (talk_reached E); exists i, os, e1; exact H1|exact H1|exact H2|].
      exact (IH _ _ H1).
  Qed.
End One.
