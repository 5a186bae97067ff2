(** Properties C54 to C61: BiDi transmissions *)
From Verif Require Import Prelude Address Datagram Backoff SpecCodec RxState Rx SpecRx SpecExec SpecConf SpecCv SpecLogon SpecBidi
  BidiProofs3 BidiProofs4 BidiProofs5 BidiProofs6 BidiProofs7 BidiProofs8 BidiProofs9 Toy CvWitness LogonWitness BidiWitness.

(** * C54 *)

(** What was transmitted in channel 1 so far and what still waits are pairs of datagrams,
    high part before low part, each pair telling the address active when some packet was
    executed, in the order of execution *)
Theorem C54_pairs : forall (I : Type) (E : Env I) i os s es, run E os (st0 i) = Ok (tt, s, es) ->
  told (moments E os (st0 i)) (spoken1 (moments E os (st0 i)) ++ addresses_waiting s).
Proof. exact @told_run. Qed.
Print Assumptions C54_pairs.

(** Decoded, a pair shows the active address: that of a consist member with its direction,
    or that of the locomotive *)
Theorem C54_decodes : forall (I : Type) (E : Env I) (s : st I) a hi lo, reached E s ->
  active (r_addrs (rxs s)) = Some a -> address_pair (r_addrs (rxs s)) a hi lo -> exists h l,
  make_data (decode_datagram hi) = Ok (256 * 1 + h) /\ make_data (decode_datagram lo) = Ok (256 * 2 + l) /\
  (same_address a (consist (r_addrs (rxs s))) -> reading_of h l = Member (aval a mod 128) (arev (consist (r_addrs (rxs s))))) /\
  (~ same_address a (consist (r_addrs (rxs s))) -> reading_of h l = Loco (aval a)).
Proof. exact @active_reads. Qed.
Print Assumptions C54_decodes.

(** A pair is prepared whenever a packet is executed while none waits *)
Theorem C54_prepared : forall (I : Type) (E : Env I) (s : st I) p q b s' es, reached E s -> ready s p q ->
  execute E s = Ok (b, s', es) -> grows s (addresses_waiting s').
Proof. exact @prepares. Qed.
Print Assumptions C54_prepared.

(** Channel 1 transmits the first of the waiting datagrams after packets for locomotives
    and the head of the logon answer after packets for logon, else nothing *)
Theorem C54_sent : forall (I : Type) (E : Env I) (s : st I), reached E s ->
  exists s' ds, biDiChannel1 E s = Ok (tt, s', map ETransmitBiDi ds) /\
  calm s' = calm s /\ waiting s' = waiting s /\ data_blocked s' = data_blocked s /\
  (to_locos s -> ds = firstn 1 (addresses_waiting s) /\ addresses_waiting s' = tl (addresses_waiting s)) /\
  (atyp (last_address s) = ATLogon -> ds = map (firstn 2) (firstn 1 (logon_answers s)) /\ addresses_waiting s' = addresses_waiting s) /\
  (~ to_locos s -> atyp (last_address s) <> ATLogon -> s' = s /\ ds = []).
Proof. exact @channel1. Qed.
Print Assumptions C54_sent.

(** Nothing else changes what waits for channel 1 *)
Theorem C54_others : forall (I : Type) (E : Env I) o (s : st I) u s' es, step E o s = Ok (u, s', es) ->
  o <> OExecute -> o <> OBiDi1 -> addresses_waiting s' = addresses_waiting s.
Proof. exact @other_q. Qed.
Print Assumptions C54_others.

(** Three packets to number 3, which joins consist 5 (in reverse) by the first, each with
    its cutout: 3 is told first, then member 5 *)
Example C54_ex : let consist5 := closed [3; 0x13; 5] in
  let os := started ++ flat_map (fun p => track p ++ [OBiDi1; OReceive 58; OExecute]) [consist5; drive3; drive3; drive3; drive3] in
  runs os factory = true /\ option_map aval (active (r_addrs (rxs (after os factory)))) = Some 5 /\
  map (fun d => make_data (decode_datagram d)) (spoken1 (moments toy os (st0 factory)) ++ addresses_waiting (after os factory)) =
    [Ok (256 * 1 + 0); Ok (256 * 2 + 3); Ok (256 * 1 + 96); Ok (256 * 2 + 128 + 5); Ok (256 * 1 + 96); Ok (256 * 2 + 128 + 5)] /\
  reading_of 0 3 = Loco 3 /\ reading_of 96 (128 + 5) = Member 5 true /\
  ready (after (removelast os) factory) drive3 [] /\ channel1_on (after os factory) = true.
Proof. cbv zeta. do 5 (split; [vm_compute; reflexivity|]). split; [split; vm_compute; reflexivity|]. vm_compute. reflexivity. Qed.

(** * C55 *)

(** At the end of a packet channel 2 transmits exactly what [answer2] says *)
Theorem C55_exact : forall (I : Type) (E : Env I) (s : st I), reached E s -> cutout s ->
  exists s' ds, biDiChannel2 E s = Ok (tt, s', map ETransmitBiDi ds) /\ steady s s' /\ answer2 s ds (waiting s').
Proof. exact @biDi2_cutout. Qed.
Print Assumptions C55_exact.

(** Whenever something is transmitted the last packet heard was undamaged and for this
    decoder *)
Theorem C55_addressed : forall (I : Type) (E : Env I) i os s es u s' es', run E os (st0 i) = Ok (tt, s, es) ->
  biDiChannel2 E s = Ok (u, s', es') -> sent es' <> [] ->
  exists p, last_heard os listener0 None = Some p /\ may_answer s p.
Proof. exact @addressed_run. Qed.
Print Assumptions C55_addressed.

(** But with 31 packets waiting nothing is heard. The decoder then answers in the cutout of
    a packet for another one. *)
Theorem C55_foreign_refuted : exists os ts p s es s1 e1 s2 e2,
  run toy os (st0 factory) = Ok (tt, s, es) /\ packet_ok p /\ plays ts 14 p /\ run toy (map OReceive ts) s = Ok (tt, s1, e1) /\
  ~ may_answer s1 p /\ biDiChannel2 toy s1 = Ok (tt, s2, e2) /\ length (sent e2) = 1%nat.
Proof. exact full_queue. Qed.
Print Assumptions C55_foreign_refuted.

(** Speed 5 km/h offered; asked for by the packet to 3, not by the one to 7 nor by a damaged one *)
Example C55_ex : let at3 := after (started ++ [ODatagram [DynKmh 5]] ++ track drive7 ++ track drive3) factory in
  let at7 := after (started ++ [ODatagram [DynKmh 5]] ++ track drive3 ++ track drive7) factory in
  let damaged := started ++ [ODatagram [DynKmh 5]] ++ track drive3 ++ track [3; 0x3F; 0x90; 0xAD] in
  reached toy at3 /\ reached toy at7 /\ cutout at3 /\ cutout at7 /\ data_turn at3 /\ length (data_waiting at3) = 2%nat /\
  option_map (map (@length Z)) (speaks2 at3) = Some [6%nat] /\
  speaks2 at7 = Some [] /\
  last_heard damaged listener0 None = None /\ speaks2 (after damaged factory) = Some [].
Proof.
  cbv zeta. split; [apply after_reached; vm_compute; reflexivity|]. split; [apply after_reached; vm_compute; reflexivity|].
  split; [vm_compute; reflexivity|]. split; [vm_compute; reflexivity|]. split.
  { left. split; [split; [vm_compute; auto|split; [vm_compute; reflexivity|left; vm_compute; reflexivity]]|]. intros [X _]. vm_compute in X. apply X. reflexivity. }
  do 4 (split; [vm_compute; reflexivity|]). vm_compute; reflexivity.
Qed.

(** * C56 *)

(** Offered data are appended, as far as [accepted] *)
Theorem C56_offered : forall (I : Type) (E : Env I) (s : st I) ds, reached E s -> Forall in_range ds ->
  exists s' new, datagram ds s = Ok (tt, s', []) /\
  Forall2 says_point (accepted s ds) new /\ data_waiting s' = data_waiting s ++ new /\ data_blocked s' = blocked_after s /\
  (length (data_waiting s') <= 7)%nat /\ calm s' = calm s /\ app s' = app s /\ addresses_waiting s' = addresses_waiting s /\
  cv_waiting s' = cv_waiting s /\ search_waiting s' = search_waiting s /\ logon_answers s' = logon_answers s.
Proof. exact @offers. Qed.
Print Assumptions C56_offered.

(** All data taken so far, in order: those transmitted, one or two in each transmission,
    and those still waiting *)
Theorem C56_fifo : forall (I : Type) (E : Env I) i os s es, codable os -> run E os (st0 i) = Ok (tt, s, es) ->
  exists groups, spoken_data (moments E os (st0 i)) (map (@concat Z) groups) /\
  Forall (fun g => (1 <= length g <= 2)%nat) groups /\ taken (moments E os (st0 i)) (concat groups ++ data_waiting s).
Proof. exact @data_fifo. Qed.
Print Assumptions C56_fifo.

(** Only offers and channel 2 change what waits *)
Theorem C56_others : forall (I : Type) (E : Env I) o (s : st I) u s' es, step E o s = Ok (u, s', es) ->
  (forall ds, o <> ODatagram ds) -> o <> OBiDi2 -> data_waiting s' = data_waiting s /\ data_blocked s' = data_blocked s.
Proof. exact @other_data. Qed.
Print Assumptions C56_others.

Theorem C56_size : forall (I : Type) (E : Env I) (s : st I), reached E s -> (length (data_waiting s) <= 7)%nat.
Proof. exact @data_size. Qed.
Print Assumptions C56_size.

(** Nine values offered, six taken after the quality of service; a tenth finds the queue
    full and blocks it; two are fetched; still nothing is taken; all are fetched *)
Example C56_ex : let nine := map DynKmh [1; 2; 3; 4; 5; 6; 7; 8; 9] in
  let fetch := track drive3 ++ [OBiDi2] in
  let os := started ++ [ODatagram nine; ODatagram [DynTemperature 20]] ++ fetch ++ [ODatagram [DynTemperature 21]] ++ times 3 fetch in
  let s1 := after (started ++ [ODatagram nine]) factory in
  let s2 := after (started ++ [ODatagram nine; ODatagram [DynTemperature 20]] ++ fetch) factory in
  codable os /\ runs os factory = true /\ length (accepted (after started factory) nine) = 7%nat /\ length (data_waiting s1) = 7%nat /\
  length (data_waiting s2) = 5%nat /\ data_blocked s2 = true /\ accepted s2 [DynTemperature 21] = [] /\
  map (fun d => map (fun x => make_data (decode_datagram x)) [firstn 3 d; skipn 3 d])
    (flat_map (fun m => sent (snd m)) (moments toy os (st0 factory))) =
  [[Ok (16384 * 7 + 64 * 0 + 7); Ok (16384 * 7 + 64 * 1)]; [Ok (16384 * 7 + 64 * 2); Ok (16384 * 7 + 64 * 3)];
   [Ok (16384 * 7 + 64 * 4); Ok (16384 * 7 + 64 * 5)]; [Ok (16384 * 7 + 64 * 6); Ok 0]].
Proof.
  cbv zeta. split.
  { assert (K : forallb (fun o => match o with
                                | ODatagram ds => forallb (fun a => match a with DynKmh d => 0 <=? d | DynTemperature d => (-50 <=? d) && (d <=? 205) | _ => false end) ds
                                | _ => true end)
      (started ++ [ODatagram (map DynKmh [1; 2; 3; 4; 5; 6; 7; 8; 9]); ODatagram [DynTemperature 20]] ++ (track drive3 ++ [OBiDi2]) ++
       [ODatagram [DynTemperature 21]] ++ times 3 (track drive3 ++ [OBiDi2])) = true) by (vm_compute; reflexivity).
    intros ds Hd. rewrite forallb_forall in K. specialize (K _ Hd). cbv beta iota in K. apply Forall_forall. intros a Ha.
    rewrite forallb_forall in K. specialize (K _ Ha). destruct a; try discriminate K; cbn [in_range]; lia. }
  do 6 (split; [vm_compute; reflexivity|]). vm_compute; reflexivity.
Qed.

(** * C57 *)

(** The content of a data point can be read off the datagram *)
Theorem C57_reads : forall p cs, byte (fst p) -> 0 <= snd p < 64 -> says_point p cs ->
  make_data (decode_datagram cs) = Ok (16384 * 7 + 64 * fst p + snd p).
Proof. exact point_reads. Qed.
Print Assumptions C57_reads.

Theorem C57_speed : forall d, 0 <= d -> let '(v, x) := dyn_convert (DynKmh d) in byte v /\ measure v x = Speed (Z.min d 511).
Proof. exact value_speed. Qed.
Print Assumptions C57_speed.

(** Outside of -50..205 C the value is off by a multiple of 256 *)
Theorem C57_temperature : forall d, let '(v, x) := dyn_convert (DynTemperature d) in
  byte v /\ measure v x = Celsius ((d + 50) mod 256 - 50) /\ (-50 <= d <= 205 -> measure v x = Celsius d).
Proof. exact value_temperature. Qed.
Print Assumptions C57_temperature.

Theorem C57_status : forall d, byte d -> dyn_convert (DynDirectionStatus d) = (d, 27) /\ measure d 27 = Status d.
Proof. exact value_status. Qed.
Print Assumptions C57_status.

(** From 30.6 V on 25.6 V too little is shown, below -27.768 V something *)
Theorem C57_voltage : forall d, -32768 <= d < 32768 -> let '(v, x) := dyn_convert (DynTrackVoltage d) in
  byte v /\ exists from, measure v x = Millivolts from /\
  (5000 <= d < 30600 -> from <= d < from + 100 /\ from mod 100 = 0) /\
  (-27768 <= d < 5000 -> from = 5000) /\
  (30600 <= d -> from <= d - 25600 < from + 100) /\
  (d < -27768 -> from <= d + 65536 - 25600 < from + 100).
Proof. exact value_voltage. Qed.
Print Assumptions C57_voltage.

Example C57_ex : dyn_convert (DynKmh 300) = (44, 1) /\ measure 44 1 = Speed 300 /\
  dyn_convert (DynTemperature (-7)) = (43, 26) /\ measure 43 26 = Celsius (-7) /\
  dyn_convert (DynTrackVoltage 18234) = (132, 46) /\ measure 132 46 = Millivolts 18200 /\
  dyn_convert (DynTrackVoltage 30600) = (0, 46) /\ measure 0 46 = Millivolts 5000 /\
  exists cs, says_point (132, 46) cs /\ make_data (decode_datagram cs) = Ok (16384 * 7 + 64 * 132 + 46).
Proof.
  repeat (split; [reflexivity|]). exists [0x55; 0xA3; 0xD2]. split; [|reflexivity]. unfold says_point, carries. cbn [fst snd].
  assert (H : base64 3 (16384 * 7 + 64 * 132 + 46) = [30; 4; 46]) by reflexivity. rewrite H.
  repeat (apply coded_cons; [apply code_word_in; vm_compute; reflexivity|]). apply coded_nil.
Qed.

(** * C58 *)

(** Frames begun, packets received and the percentage of lost packets are those counted
    off the track *)
Theorem C58_exact : forall (I : Type) (E : Env I) i os s es, run E os (st0 i) = Ok (tt, s, es) ->
  tally_of s = counted os listener0 tally0.
Proof. exact @tally_run. Qed.
Print Assumptions C58_exact.

(** It is a percentage if no packet is executed while another one is being received *)
Theorem C58_percentage : forall (I : Type) (E : Env I) i os s es, run E os (st0 i) = Ok (tt, s, es) ->
  undisturbed os listener0 -> 0 <= quality s <= 100.
Proof. exact @quality_calm. Qed.
Print Assumptions C58_percentage.

(** Otherwise it may be 255, but nothing else *)
Theorem C58_range : forall (I : Type) (E : Env I) i os s es, run E os (st0 i) = Ok (tt, s, es) ->
  0 <= quality s <= 100 \/ quality s = 255.
Proof. exact @quality_run. Qed.
Print Assumptions C58_range.

Theorem C58_percentage_refuted : exists os s es, run toy os (st0 factory) = Ok (tt, s, es) /\ quality s = 255.
Proof. exact quality_255. Qed.
Print Assumptions C58_percentage_refuted.

(** A damaged packet and 99 good ones: 1% *)
Example C58_ex : let os := started ++ track [3; 0x3F; 0x90; 0xAD] ++ times 99 driven in
  runs os factory = true /\ undisturbed os listener0 /\ quality (after os factory) = 1 /\
  counted (started ++ track [3; 0x3F; 0x90; 0xAD] ++ times 98 driven) listener0 tally0 = Tally 99 98 0.
Proof. cbv zeta. split; [vm_compute; reflexivity|]. split; [apply undisturbed_spec; vm_compute; reflexivity|]. split; vm_compute; reflexivity. Qed.

(** * C59 *)

(** Of 64 attempts in a row at least one is let through *)
Theorem C59_bounded : forall b rs, possible b -> (64 <= length rs)%nat -> In false (firstn 64 (attempts b rs)).
Proof. exact attempts_some. Qed.
Print Assumptions C59_bounded.

(** After an attempt let through as many are suppressed as the random number says, modulo
    8, 16, 32 and from then on 64, and then the next one is let through *)
Theorem C59_window : forall b r rs, possible b -> bo_count b = 0 -> (Z.to_nat (r mod 2 ^ (3 + bo_range b)) <= length rs)%nat ->
  attempts b (r :: rs) =
  false :: repeat true (Z.to_nat (r mod 2 ^ (3 + bo_range b))) ++
  attempts (Mk_backoff (Z.min (bo_range b + 1) 3) 0) (skipn (Z.to_nat (r mod 2 ^ (3 + bo_range b))) rs).
Proof. exact attempts_pass. Qed.
Print Assumptions C59_window.

(** Immediately after now(), with the shortest pause following *)
Theorem C59_now : forall b r rs, (Z.to_nat (r mod 8) <= length rs)%nat ->
  attempts (backoff_now b) (r :: rs) =
  false :: repeat true (Z.to_nat (r mod 8)) ++ attempts (Mk_backoff 1 0) (skipn (Z.to_nat (r mod 8)) rs).
Proof. exact attempts_now. Qed.
Print Assumptions C59_now.

Example C59_ex : let b := snd (backoff_test (snd (backoff_test backoff0 0)) 18) in possible b /\
  attempts b [9; 9; 5; 9; 9; 9; 9; 9] = [true; true; false; true; true; true; true; true] /\
  attempts (backoff_now b) [1; 9; 35; 9; 9; 9; 9; 9] = [false; true; false; true; true; true; false; true].
Proof. split; [apply possible_test, possible_test, possible_0|split; vm_compute; reflexivity]. Qed.

(** * C60 *)

(** With a clock that never runs backwards a search packet has the effect described by
    [searched] *)
Theorem C60_searched : forall (I : Type) (E : Env I) time i os s es p q n, clock E time -> 0 <= time i ->
  run E os (st0 i) = Ok (tt, s, es) -> ready s p q -> in_service s = false -> for_locos p ->
  acts_as (r_addrs (rxs s)) p n -> asks_search p ->
  exists t s' es', execute E s = Ok (true, s', es') /\ time (app s) <= t <= time (app s') /\ wake_time s' <= t /\
    searched s t s' /\ storing s es'.
Proof. exact @search_answered. Qed.
Print Assumptions C60_searched.

(** The answer can be decoded *)
Theorem C60_reads : forall (I : Type) (E : Env I) (s : st I) sec d, reached E s -> 0 <= sec < 30 -> search_answer s sec d ->
  exists h l,
  make_data (decode_datagram (firstn 2 d)) = Ok (256 * 1 + h) /\ make_data (decode_datagram (firstn 2 (skipn 2 d))) = Ok (256 * 2 + l) /\
  make_data (decode_datagram (skipn 4 d)) = Ok (256 * 14 + sec) /\
  let a := primary (r_addrs (rxs s)) in
  (same_address a (consist (r_addrs (rxs s))) -> reading_of h l = Member (aval a mod 128) (arev (consist (r_addrs (rxs s))))) /\
  (~ same_address a (consist (r_addrs (rxs s))) -> reading_of h l = Loco (aval a)).
Proof. exact @search_reads. Qed.
Print Assumptions C60_reads.

(** No other packet prepares an answer to a search *)
Theorem C60_quiet : forall (I : Type) (E : Env I) (s : st I) p q b s' es, reached E s -> ready s p q ->
  ~ asks_search p \/ in_service s = true \/ ~ (for_locos p /\ exists n, acts_as (r_addrs (rxs s)) p n) ->
  execute E s = Ok (b, s', es) -> search_waiting s' = search_waiting s.
Proof. exact @search_quiet. Qed.
Print Assumptions C60_quiet.

(** Nor does anything else *)
Theorem C60_others : forall (I : Type) (E : Env I) o (s : st I) u s' es, step E o s = Ok (u, s', es) ->
  o <> OExecute -> o <> OBiDi2 -> search_waiting s' = search_waiting s.
Proof. exact @other_search. Qed.
Print Assumptions C60_others.

(** A clock that runs backwards: the assertion in make_datagram fails *)
Theorem C60_backwards_refuted : exists (E : Env Z) i os s es q, run E os (st0 i) = Ok (tt, s, es) /\ ready s search_all q /\ in_service s = false /\
  for_locos search_all /\ acts_as (r_addrs (rxs s)) search_all 0 /\ asks_search search_all /\ execute E s = UB AssertFailed.
Proof. exact backward_clock. Qed.
Print Assumptions C60_backwards_refuted.

(** Packets one second apart from second 5 on: the search is answered at second 6, one
    second after waking up *)
Example C60_ex : let E := timed second in
  let os := started ++ track drive3 ++ track search_all ++ [OReceive 58; OExecute] in
  let s := since second os (5 * second) in
  clock E (fun t => t) /\ (exists es, run E os (st0 (5 * second)) = Ok (tt, s, es)) /\ ready s search_all [] /\ in_service s = false /\
  for_locos search_all /\ acts_as (r_addrs (rxs s)) search_all 0 /\ asks_search search_all /\
  match execute E s with
  | Ok (_, s', _) => last_time s' = 6 * second /\ wake_time s' = 5 * second /\
      map (fun d => make_data (decode_datagram d)) (search_waiting s') = [Ok (((256 * 1 * 4096) + 256 * 2 + 3) * 4096 + 256 * 14 + 1)]
  | UB _ => False
  end.
Proof.
  cbv zeta. split; [apply timed_clock; unfold second; lia|]. split; [eexists; vm_compute; reflexivity|]. split; [split; vm_compute; reflexivity|].
  split; [vm_compute; reflexivity|]. split; [cbn; auto|]. split; [apply to_all; reflexivity|]. split; [exists [0xDF]; left; reflexivity|].
  vm_compute. split; [reflexivity|]. split; reflexivity.
Qed.

(** * C61 *)

(** Channel 1: two legal bytes, at most once *)
Theorem C61_channel1 : forall (I : Type) (E : Env I) (s : st I), reached E s -> exists s' es,
  biDiChannel1 E s = Ok (tt, s', es) /\ Forall (lawful 2 2) (sent es) /\ (length (sent es) <= 1)%nat.
Proof. exact @sends1. Qed.
Print Assumptions C61_channel1.

(** Channel 2: one to six legal bytes, at most once *)
Theorem C61_channel2 : forall (I : Type) (E : Env I) (s : st I) u s' es, reached E s -> biDiChannel2 E s = Ok (u, s', es) ->
  Forall (lawful 1 6) (sent es) /\ (length (sent es) <= 1)%nat.
Proof. exact @sends2. Qed.
Print Assumptions C61_channel2.

(** All other calls transmit nothing *)
Theorem C61_others : forall (I : Type) (E : Env I) o (s : st I) u s' es, step E o s = Ok (u, s', es) ->
  o <> OBiDi1 -> o <> OBiDi2 -> sent es = [].
Proof. exact @mute_step. Qed.
Print Assumptions C61_others.

(** Channel 2 before the end of a packet reads past the end of what was received *)
Theorem C61_early_refuted : exists os s es, run toy os (st0 factory) = Ok (tt, s, es) /\ ~ cutout s /\ own_packet s /\
  biDiChannel2 toy s = UB OutOfBounds.
Proof. exact early_channel2. Qed.
Print Assumptions C61_early_refuted.

Example C61_ex : let os := started ++ [ODatagram [DynKmh 5]] ++ track drive3 ++ [OReceive 58; OExecute] ++ track drive3 in
  let s := after os factory in
  reached toy s /\
  speaks1 s = Some [[0xA3; 0xAC]] /\
  option_map (map (@length Z)) (speaks2 s) = Some [6%nat].
Proof. cbv zeta. split; [apply after_reached; vm_compute; reflexivity|]. split; vm_compute; reflexivity. Qed.
