(** BiDi: the claims *)
From Verif Require Import Prelude Address Datagram Backoff Speed RxState Rx ZBits RxLogic RxInv SpecCodec CodecProofs CodecProofs2
  SpecRx RxBitProofs SpecExec ExecProofs SpecConf SpecCv CvProofs CvProofs2 SaneProofs SpecLogon LogonProofs4
  SpecBidi BidiProofs BidiProofs2 BidiProofs3 BidiProofs4 BidiProofs5 BidiProofs6 BidiProofs7 BidiProofs8.

Ltac Zify.zify_post_hook ::= Z.div_mod_to_equations.

Section Claims.
  Context {I : Type} (E : Env I).
  Implicit Types s : st I.

  (** ** Channel 1 *)
  Lemma prepares : forall s p q b s' es, reached E s -> ready s p q -> execute E s = Ok (b, s', es) -> grows s (addresses_waiting s').
  Proof. intros s p q b s' es (i & os & e0 & Hr). apply execute_grows. exact (sane_run E _ _ _ _ Hr). Qed.
  Lemma channel1 : forall s, reached E s -> exists s' ds, biDiChannel1 E s = Ok (tt, s', map ETransmitBiDi ds) /\
    calm s' = calm s /\ waiting s' = waiting s /\ data_blocked s' = data_blocked s /\
    (to_locos s -> ds = firstn 1 (addresses_waiting s) /\ addresses_waiting s' = tl (addresses_waiting s)) /\
    (atyp (last_address s) = ATLogon -> ds = map (firstn 2) (firstn 1 (logon_answers s)) /\ addresses_waiting s' = addresses_waiting s) /\
    (~ to_locos s -> atyp (last_address s) <> ATLogon -> s' = s /\ ds = []).
  Proof. intros s Hr. apply biDi1_exact. apply (talk_reached E). exact Hr. Qed.

  Lemma pair_reads : forall ad a hi lo, 0 <= aval a < 16384 -> address_pair ad a hi lo -> exists h l,
    make_data (decode_datagram hi) = Ok (256 * 1 + h) /\ make_data (decode_datagram lo) = Ok (256 * 2 + l) /\ byte h /\ byte l /\
    (same_address a (consist ad) -> reading_of h l = Member (aval a mod 128) (arev (consist ad))) /\
    (~ same_address a (consist ad) -> reading_of h l = Loco (aval a)).
  Proof.
    intros ad a hi lo Ha (h & l & T & C1 & C2). exists h, l. destruct (tells_range _ _ _ _ Ha T) as [B1 B2].
    assert (forall n, byte n -> 0 <= 256 * 1 + n < 64 ^ Z.of_nat 2 /\ 0 <= 256 * 2 + n < 64 ^ Z.of_nat 2) as K.
    { intros n Hn. change (64 ^ Z.of_nat 2) with 4096. unfold byte in Hn. lia. }
    destruct (K h B1) as [K1 _]. destruct (K l B2) as [_ K2]. pose proof (tells_reading _ _ _ _ Ha T) as [R1 R2].
    split; [exact (carries_reads 2 _ _ ltac:(lia) K1 C1)|]. split; [exact (carries_reads 2 _ _ ltac:(lia) K2 C2)|]. auto.
  Qed.
  Lemma active_reads : forall s a hi lo, reached E s -> active (r_addrs (rxs s)) = Some a -> address_pair (r_addrs (rxs s)) a hi lo -> exists h l,
    make_data (decode_datagram hi) = Ok (256 * 1 + h) /\ make_data (decode_datagram lo) = Ok (256 * 2 + l) /\
    (same_address a (consist (r_addrs (rxs s))) -> reading_of h l = Member (aval a mod 128) (arev (consist (r_addrs (rxs s))))) /\
    (~ same_address a (consist (r_addrs (rxs s))) -> reading_of h l = Loco (aval a)).
  Proof.
    intros s a hi lo (i & os & es & Hr) Ha Hp. pose proof (sane_run E _ _ _ _ Hr) as Hs. open_sane Hs.
    assert (0 <= aval a < 16384) as Hv; [|destruct (pair_reads _ a hi lo Hv Hp) as (h & l & R1 & R2 & _ & _ & R3 & R4); exists h, l; auto].
    clear Hp.
    unfold active in Ha. destruct (aval (logon _) =? 0); [|inversion Ha; subst; exact Hlo].
    destruct (aval (consist _) =? 0); [inversion Ha; subst; exact Hpr|]. destruct (aval (consist _) <? 128); inversion Ha; subst; exact Hco.
  Qed.

  (** ** Channel 2 *)
  Lemma addressed_run : forall i os s es u s' es', run E os (st0 i) = Ok (tt, s, es) -> biDiChannel2 E s = Ok (u, s', es') -> sent es' <> [] ->
    exists p, last_heard os listener0 None = Some p /\ may_answer s p.
  Proof.
    intros i os s es u s' es' Hr H Hs. assert (HR : reached E s) by (exists i, os, es; exact Hr).
    pose proof (last_run E _ _ _ _ Hr) as L. destruct (biDi2_addressed E _ _ _ _ (talk_reached E _ HR) H) as [_ K]. specialize (K Hs).
    unfold own_packet, consist_packet in K. rewrite L in K.
    destruct (last_heard os listener0 None) as [p|]; cbn [address_heard] in K.
    - exists p. split; [reflexivity|]. unfold may_answer. tauto.
    - exfalso. cbn [addr0 atyp In] in K. intuition discriminate.
  Qed.

  (** ** Data *)
  Lemma byte_quality : forall s, reached E s -> byte (quality s).
  Proof. intros s (i & os & es & H). unfold byte. pose proof (quality_run E _ _ _ _ H). lia. Qed.
  Lemma offers : forall s ds, reached E s -> Forall in_range ds -> exists s' new, datagram ds s = Ok (tt, s', []) /\
    Forall2 says_point (accepted s ds) new /\ data_waiting s' = data_waiting s ++ new /\ data_blocked s' = blocked_after s /\
    (length (data_waiting s') <= 7)%nat /\ calm s' = calm s /\ app s' = app s /\ addresses_waiting s' = addresses_waiting s /\
    cv_waiting s' = cv_waiting s /\ search_waiting s' = search_waiting s /\ logon_answers s' = logon_answers s.
  Proof.
    intros s ds Hr Hd. pose proof (talk_reached E _ Hr) as Ht. assert (length (data_waiting s) <= 7)%nat as L by (open_talk Ht; exact Hdl).
    destruct (datagram_run s ds Hd L (byte_quality s Hr)) as (new & F & R). do 2 eexists. split; [exact R|]. split; [exact F|].
    split; [reflexivity|]. split; [reflexivity|]. split; [|repeat split].
    cbn [with_data data_waiting rxs r_bidi dyn_deque]. change (length (data_waiting s ++ new) <= 7)%nat. rewrite app_length, <- (F2_length _ _ _ _ _ F).
    unfold accepted. destruct (length (data_waiting s)) as [|k] eqn:Ek.
    - destruct (channel2_on s); [rewrite firstn_length|cbn [length]]; lia.
    - destruct (channel2_on s && negb (data_blocked s)); [rewrite firstn_length|cbn [length]]; lia.
  Qed.
  Lemma data_size : forall s, reached E s -> (length (data_waiting s) <= 7)%nat.
  Proof. intros s Hr. pose proof (talk_reached E _ Hr) as Ht. open_talk Ht. exact Hdl. Qed.
  Lemma data_fifo : forall i os s es, codable os -> run E os (st0 i) = Ok (tt, s, es) -> exists groups,
    spoken_data (moments E os (st0 i)) (map (@concat Z) groups) /\
    Forall (fun g => (1 <= length g <= 2)%nat) groups /\ taken (moments E os (st0 i)) (concat groups ++ data_waiting s).
  Proof. exact (fifo_run E). Qed.

  (** ** Search *)
  Lemma search_answered : forall time i os s es p q n, clock E time -> 0 <= time i -> run E os (st0 i) = Ok (tt, s, es) ->
    ready s p q -> in_service s = false -> for_locos p -> acts_as (r_addrs (rxs s)) p n -> asks_search p ->
    exists t s' es', execute E s = Ok (true, s', es') /\ time (app s) <= t <= time (app s') /\ wake_time s' <= t /\ searched s t s' /\ storing s es'.
  Proof.
    intros time i os s es p q n HC Hi Hr Hq Hm Hf Ha Hs.
    assert (HR : reached E s) by (exists i, os, es; exact Hr). destruct (reached_ready E _ _ _ HR Hq) as [Hb Hl].
    pose proof (ordered_run E time HC _ _ _ _ Hi Hr) as Ho.
    destruct (search_execute E time HC s p q n (sane_run E _ _ _ _ Hr) Ho Hq Hb Hl Hm Hf Ha Hs) as (t & s' & es' & E1 & E2 & E3 & E4).
    exists t, s', es'. split; [exact E1|]. split; [exact E2|]. split; [|auto].
    destruct E3 as (_ & -> & _). destruct Ho. destruct (woken s t); lia.
  Qed.
  Lemma search_quiet : forall s p q b s' es, reached E s -> ready s p q ->
    ~ asks_search p \/ in_service s = true \/ ~ (for_locos p /\ exists n, acts_as (r_addrs (rxs s)) p n) ->
    execute E s = Ok (b, s', es) -> search_waiting s' = search_waiting s.
  Proof. intros s p q b s' es Hr Hq. destruct (reached_ready E _ _ _ Hr Hq). apply (quiet_execute E s p q); assumption. Qed.
  Lemma search_reads : forall s sec d, reached E s -> 0 <= sec < 30 -> search_answer s sec d -> exists h l,
    make_data (decode_datagram (firstn 2 d)) = Ok (256 * 1 + h) /\ make_data (decode_datagram (firstn 2 (skipn 2 d))) = Ok (256 * 2 + l) /\
    make_data (decode_datagram (skipn 4 d)) = Ok (256 * 14 + sec) /\
    let a := primary (r_addrs (rxs s)) in
    (same_address a (consist (r_addrs (rxs s))) -> reading_of h l = Member (aval a mod 128) (arev (consist (r_addrs (rxs s))))) /\
    (~ same_address a (consist (r_addrs (rxs s))) -> reading_of h l = Loco (aval a)).
  Proof.
    intros s sec d (i & os & es & Hr) Hsec (hi & lo & tm & Hp & Ht & ->). pose proof (sane_run E _ _ _ _ Hr) as Hs. open_sane Hs.
    assert (L : length hi = 2%nat /\ length lo = 2%nat).
    { destruct Hp as (h & l & _ & C1 & C2). assert (K : forall n v cs, carries n v cs -> length cs = n) by (intros n v cs K; unfold carries in K; rewrite <- (base64_length n v); induction K; cbn [length]; congruence). split; eapply K; eassumption. }
    destruct L as [L1 L2]. destruct hi as [|h1 [|h2 [|]]]; try discriminate L1. destruct lo as [|l1 [|l2 [|]]]; try discriminate L2. cbn [List.app firstn skipn].
    destruct (pair_reads _ _ _ _ Hpr Hp) as (h & l & R1 & R2 & _ & _ & R3 & R4). exists h, l. split; [exact R1|]. split; [exact R2|]. split; [|auto].
    apply (carries_reads 2); [lia| |exact Ht]. change (64 ^ Z.of_nat 2) with 4096. lia.
  Qed.
End Claims.

(** ** Values *)
Lemma point_reads : forall p cs, byte (fst p) -> 0 <= snd p < 64 -> says_point p cs -> make_data (decode_datagram cs) = Ok (16384 * 7 + 64 * fst p + snd p).
Proof.
  intros p cs H1 H2 H. apply (carries_reads 3); [lia| |exact H]. change (64 ^ Z.of_nat 3) with 262144. unfold byte in H1. lia.
Qed.
Lemma i16_small : forall x, -32768 <= x < 32768 -> i16 x = x.
Proof. intros x H. unfold i16. lia. Qed.
Lemma value_speed : forall d, 0 <= d -> let '(v, x) := dyn_convert (DynKmh d) in byte v /\ measure v x = SpecBidi.Speed (Z.min d 511).
Proof.
  intros d Hd. unfold dyn_convert, byte, u8. destruct (Z.ltb_spec d 256) as [L|L].
  - replace (d <? 512) with true by lia. cbn [measure]. rewrite Z.mod_small by lia. split; [lia|]. f_equal. lia.
  - destruct (Z.ltb_spec d 512); cbn [measure]; (split; [lia|]); f_equal; lia.
Qed.
Lemma value_temperature : forall d, let '(v, x) := dyn_convert (DynTemperature d) in byte v /\ measure v x = Celsius ((d + 50) mod 256 - 50) /\
  (-50 <= d <= 205 -> measure v x = Celsius d).
Proof.
  intros d. unfold dyn_convert, lerp, byte, u8. replace ((d - -50) * (255 - 0)) with ((d + 50) * (205 - -50)) by lia.
  rewrite Z.quot_mul by lia. cbn [measure]. rewrite Z.add_0_l. split; [lia|]. split; [reflexivity|]. intros H. f_equal. lia.
Qed.
Lemma value_status : forall d, byte d -> dyn_convert (DynDirectionStatus d) = (d, 27) /\ measure d 27 = Status d.
Proof. intros d H. unfold dyn_convert, byte, u8 in *. rewrite Z.mod_small by lia. split; reflexivity. Qed.
Lemma value_voltage : forall d, -32768 <= d < 32768 -> let '(v, x) := dyn_convert (DynTrackVoltage d) in byte v /\ exists from, measure v x = Millivolts from /\
  (5000 <= d < 30600 -> from <= d < from + 100 /\ from mod 100 = 0) /\
  (-27768 <= d < 5000 -> from = 5000) /\
  (30600 <= d -> from <= d - 25600 < from + 100) /\
  (d < -27768 -> from <= d + 65536 - 25600 < from + 100).
Proof.
  intros d Hd. unfold dyn_convert, byte, u8. assert (0 <= Z.max 0 (i16 (d - 5000))) by lia.
  rewrite Z.quot_div_nonneg by lia. cbn [measure]. split; [lia|].
  eexists. split; [reflexivity|]. unfold i16. repeat split; intros; lia.
Qed.
