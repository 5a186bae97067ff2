(** The example for the ESP32: C89, C90 *)
From Verif Require Import Prelude Address SpecCodec Packets SpecTx Tx CodecProofs2 RxState Rx SpecRx SpecExec SpecConf SpecCv SpecBidi SpecSafe Toy
  SpecLayout SpecLayout2 LayoutWitness SpecStation StationProofs2 StationWitness Rmt SpecRmt RmtProofs2 RmtLife SpecRmtTrack RmtTrackProofs2 Esp32 Esp32Proofs.

(** * C89 *)

(** Packets sent by an RMT channel one after the other, as in C71: a decoder makes only
    defined steps and obeys the packets, all but those still queued *)
Theorem C89_obeyed : forall (I : Type) (E : Env I) (m : I -> Z -> Z) able (time : I -> Z),
  keeps_cvs able E m -> short_cv1 E -> clock E time ->
  forall c js i, 0 <= time i -> within_ranges c ->
  Forall (fun j => packet_ok (j_bytes j) /\ complete (j_bytes j)) js -> Forall (closes c) js -> all_supplied c true js ->
  exists ts m', channel c rmt_reset js = Some (ts, m') /\
  forall dos, filter is_receive dos = map OReceive ts -> ~ In ODisable dos -> never_full dos listener0 -> on_time dos ->
    exists s es, run E (OInit :: dos) (st0 i) = Ok (tt, s, es) /\
      complete_packets c js = SpecRx.taken dos listener0 ++ r_deque (rxs s) /\
      let x := obey_all (e_east_west E) (SpecRx.taken dos listener0) (new_view (m i)) in
      Forall (allowed able) (snd x) ->
      seen_in es = snd x /\ (forall a, m (app s) a = v_cvs (fst x) a) /\
      in_service s = v_service (fst x) /\ page s = v_page (fst x).
Proof. exact @rmt_obeyed. Qed.
Print Assumptions C89_obeyed.

(** A speed and a CV write, with the configuration of the example *)
Example C89_ex :
  let c := esp32_config in
  let js := map (fun p => Job p [64; 32]%nat 24) [frame 3 [0x3F; 0x90]; frame 3 [0xEC; 2; 5]; frame 3 [0xEC; 2; 5]; make_idle_packet] in
  within_ranges c /\ Forall (fun j => packet_ok (j_bytes j)) js /\ Forall (closes c) js /\ all_supplied c true js /\
  exists ts m' s es, channel c rmt_reset js = Some (ts, m') /\
    let dos := prompt 40 40 ts in
    filter is_receive dos = map OReceive ts /\ ~ In ODisable dos /\ never_full dos listener0 /\ on_time dos /\
    run careful (OInit :: dos) (st0 (fun a => if a =? 0 then 3 else 0)) = Ok (tt, s, es) /\
    seen_in es = [Told (EDirection 3 true); Told (ESpeed 3 30); Access (Store 2 5)] /\ shown (app s) 2 = 5.
Proof.
  cbv zeta. split; [unfold within_ranges; cbn; lia|].
  split. { cbn [map]. repeat (apply Forall_cons; [cbn [j_bytes]; split; [apply Forall_forall; intros b Hb; vm_compute in Hb; unfold byte; lia|];
      split; [vm_compute; lia|split; reflexivity]|]). apply Forall_nil. }
  split. { cbn [map]. repeat (apply Forall_cons; [left; reflexivity|]). apply Forall_nil. }
  split. { cbn [map all_supplied]. do 4 (split; [split; [apply (unsplit_minimal _ _ _ 1);
             [unfold within_ranges; cbn; lia|cbn; lia|reflexivity]|vm_compute; lia]|]). exact Logic.I. }
  do 4 eexists. split; [vm_compute; reflexivity|].
  split; [apply prompt_receives|]. split; [apply prompt_no_disable|].
  split; [apply prompt_enough, gaps_every; vm_compute; reflexivity|]. split; [apply prompt_on_time|].
  split; [vm_compute; reflexivity|]. split; vm_compute; reflexivity.
Qed.

(** * C90 *)

(** The example: the encoder is created. However often the loop runs, with less than 56
    microseconds between two transmissions and at least 64 symbols of memory at first, a
    decoder hears one idle packet for each turn, the last one perhaps later, and does
    nothing. *)
Theorem C90_idles : forall (I : Type) (E : Env I) (m : I -> Z -> Z) able (time : I -> Z),
  keeps_cvs able E m -> short_cv1 E -> clock E time ->
  forall turns i, 0 <= time i -> Forall (fun x => (64 <= hd 0 (fst x))%nat /\ 0 <= snd x < 56) turns ->
  exists ts m', channel esp32_config rmt_reset (esp32_loop turns) = Some (ts, m') /\
  forall dos, filter is_receive dos = map OReceive ts -> ~ In ODisable dos -> never_full dos listener0 -> on_time dos ->
    exists s es k, run E (OInit :: dos) (st0 i) = Ok (tt, s, es) /\
      heard dos listener0 = repeat [0xFF; 0; 0xFF] k /\ (length turns - 1 <= k <= length turns)%nat /\
      seen_in es = [] /\ forall a, m (app s) a = m i a.
Proof. exact @esp32_idles. Qed.
Print Assumptions C90_idles.

Theorem C90_created : forall h, exists d h', rmt_new (Luck true true true 0 0) esp32_config h = (0, Some d, h').
Proof. intros h. do 2 eexists. reflexivity. Qed.
Print Assumptions C90_created.

(** With 56 microseconds not one packet is heard *)
Theorem C90_exact : exists ts m' s es,
  channel esp32_config rmt_reset (esp32_loop (repeat ([64%nat], 56) 20)) = Some (ts, m') /\
  run toy (map OReceive ts) (st0 factory) = Ok (tt, s, es) /\ heard (map OReceive ts) listener0 = [].
Proof. do 4 eexists. split; [vm_compute; reflexivity|]. split; vm_compute; reflexivity. Qed.
Print Assumptions C90_exact.

(** 20 turns with gaps of 0 .. 55 microseconds *)
Example C90_ex : exists ts m' s es,
  let turns := map (fun g => ([64%nat], g)) [0; 17; 18; 24; 30; 31; 50; 55; 1; 2; 3; 24; 24; 24; 0; 0; 55; 55; 7; 24] in
  let dos := prompt 40 40 ts in
  Forall (fun x => (64 <= hd 0 (fst x))%nat /\ 0 <= snd x < 56) turns /\
  channel esp32_config rmt_reset (esp32_loop turns) = Some (ts, m') /\
  filter is_receive dos = map OReceive ts /\ ~ In ODisable dos /\ never_full dos listener0 /\ on_time dos /\
  run careful (OInit :: dos) (st0 (fun a => if a =? 0 then 3 else 0)) = Ok (tt, s, es) /\
  heard dos listener0 = repeat [0xFF; 0; 0xFF] 20.
Proof.
  do 4 eexists. cbv zeta. split; [cbn [map]; repeat (apply Forall_cons; [cbn [fst snd hd]; lia|]); apply Forall_nil|].
  split; [vm_compute; reflexivity|]. split; [apply prompt_receives|]. split; [apply prompt_no_disable|].
  split; [apply prompt_enough, gaps_every; vm_compute; reflexivity|]. split; [apply prompt_on_time|].
  split; vm_compute; reflexivity.
Qed.
