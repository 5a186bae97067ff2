(** C71-C72: the RMT encoder on the track and in memory. *)
From Verif Require Import Prelude SpecCodec Rmt RxState Rx SpecRx Toy SpecRmt RmtProofs2 SpecRmtTrack RmtTrackProofs
  RmtLife SpecRmtLife RmtLifeProofs.

(** * C71 *)

(** Packets sent by an RMT channel one after the other, with any gaps after which the
    end bits still close, to any decoder with any other calls in between: as long as the
    decoder keeps up and is not disabled it queues exactly these packets. The last one
    is missing as long as its end bit waits for a one. *)
Theorem C71_received : forall (I : Type) (E : Env I) c js ts m i dos s es,
  within_ranges c -> Forall (fun j => packet_ok (j_bytes j)) js -> Forall (closes c) js ->
  all_supplied c true js -> channel c rmt_reset js = Some (ts, m) ->
  filter is_receive dos = map OReceive ts -> ~ In ODisable dos ->
  never_full dos listener0 -> run E dos (st0 i) = Ok (tt, s, es) ->
  heard dos listener0 = complete_packets c js /\
  heard dos listener0 = SpecRx.taken dos listener0 ++ r_deque (rxs s).
Proof. exact @rmt_end_to_end. Qed.
Print Assumptions C71_received.

(** The channel never fails *)
Theorem C71_channel : forall c js first m, within_ranges c -> Forall (fun j => packet_ok (j_bytes j)) js ->
  all_supplied c first js -> SpecRmt.between first m -> exists ts m', channel c m js = Some (ts, m').
Proof. exact channel_total. Qed.
Print Assumptions C71_channel.

(** Without the hypothesis on the end bits it is false: end bit and ZIMO 0 as in the
    example for the ESP32, no cutout and no gap. Not one of the packets is received. *)
Theorem C71_refuted : exists c js ts m s es,
  within_ranges c /\ Forall (fun j => packet_ok (j_bytes j)) js /\ all_supplied c true js /\
  channel c rmt_reset js = Some (ts, m) /\
  run toy (map OReceive ts) (st0 factory) = Ok (tt, s, es) /\ (4 <= length js)%nat /\
  heard (map OReceive ts) listener0 = [] /\ r_deque (rxs s) = [].
Proof.
  exists (Mk_rmt_config 17 0 58 100 34 false true),
         (repeat (Job [3; 0x3F; 0x90; 0xAC] [64; 32]%nat 0) 4).
  do 4 eexists. split; [unfold within_ranges; cbn; lia|].
  split. { cbn [repeat]. repeat (apply Forall_cons;
           [cbn [j_bytes]; split; [repeat (apply Forall_cons; [unfold byte; lia|]); apply Forall_nil|
                    split; [cbn [length]; lia|split; reflexivity]]|]). apply Forall_nil. }
  split. { cbn [repeat all_supplied]. do 4 (split; [split; [apply (unsplit_minimal _ _ _ 1);
             [unfold within_ranges; cbn; lia|cbn; lia|reflexivity]|vm_compute; lia]|]). exact Logic.I. }
  split; [vm_compute; reflexivity|]. split; [vm_compute; reflexivity|].
  split; [cbn; lia|]. split; vm_compute; reflexivity.
Qed.
Print Assumptions C71_refuted.

(** Hypotheses: the configuration of the ESP32 example, gaps of 0 and 24 microseconds.
    The third packet waits for the first half bit of the next cutout. *)
Example C71_ex :
  let c := Mk_rmt_config 17 60 58 100 34 false true in
  let js := [Job [0xFF; 0x00; 0xFF] [64; 32]%nat 24; Job [3; 0x3F; 0x90; 0xAC] [64; 32]%nat 0;
             Job [4; 0x3F; 0x90; 0xAB] [64; 32]%nat 0] in
  within_ranges c /\ Forall (fun j => packet_ok (j_bytes j)) js /\ Forall (closes c) js /\
  all_supplied c true js /\
  (exists ts m s es, channel c rmt_reset js = Some (ts, m) /\
     run toy (map OReceive ts) (st0 factory) = Ok (tt, s, es) /\
     complete_packets c js = [[0xFF; 0x00; 0xFF]; [3; 0x3F; 0x90; 0xAC]] /\
     r_deque (rxs s) = [[0xFF; 0x00; 0xFF]; [3; 0x3F; 0x90; 0xAC]]).
Proof.
  cbv zeta. split; [unfold within_ranges; cbn; lia|].
  split. { cbn [repeat]. repeat (apply Forall_cons;
           [cbn [j_bytes]; split; [repeat (apply Forall_cons; [unfold byte; lia|]); apply Forall_nil|
                    split; [cbn [length]; lia|split; reflexivity]]|]). apply Forall_nil. }
  split. { constructor; [left; reflexivity|]. constructor; [right; cbn; split; [reflexivity|left; lia]|].
           constructor; [right; cbn; split; [reflexivity|left; lia]|constructor]. }
  split. { cbn [all_supplied]. do 3 (split; [split; [apply (unsplit_minimal _ _ _ 1);
             [unfold within_ranges; cbn; lia|cbn; lia|reflexivity]|vm_compute; lia]|]). exact Logic.I. }
  do 4 eexists. split; [vm_compute; reflexivity|]. split; [vm_compute; reflexivity|].
  split; vm_compute; reflexivity.
Qed.

(** * C72 *)

(** After any sequence of creations and deletions, whatever fails: nothing was freed
    twice and the living blocks are exactly the three of each encoder held *)
Theorem C72_memory : forall xs rs ds h, do_calls xs ([], Heap 0 [] false) = (rs, (ds, h)) ->
  accounted ds h /\ length (h_live h) = (3 * length ds)%nat.
Proof. exact memory_accounted. Qed.
Print Assumptions C72_memory.

(** A creation returns the documented code. It yields an encoder exactly if the code is
    ESP_OK and leaves the living blocks alone otherwise. *)
Theorem C72_creation : forall xs rs ds h k c r ds' h',
  do_calls xs ([], Heap 0 [] false) = (rs, (ds, h)) -> do_call (Create k c) (ds, h) = (r, (ds', h')) ->
  creation k c r /\
  (r = 0 -> exists d, ds' = ds ++ [d]) /\ (r <> 0 -> ds' = ds /\ h_live h' = h_live h).
Proof. exact creation_result. Qed.
Print Assumptions C72_creation.

(** A deletion succeeds and takes away exactly the blocks of that encoder *)
Theorem C72_deletion : forall xs rs ds h n r ds' h',
  do_calls xs ([], Heap 0 [] false) = (rs, (ds, h)) -> do_call (Delete n) (ds, h) = (r, (ds', h')) ->
  r = 0 /\ ds' = firstn n ds ++ skipn (S n) ds /\ accounted ds' h'.
Proof. exact deletion_result. Qed.
Print Assumptions C72_deletion.

(** Two encoders; a third one fails at its bytes encoder; the first is deleted *)
Example C72_ex :
  let c := Mk_rmt_config 17 60 58 100 34 false true in
  do_calls [Create (Luck true true true 0 0) c; Create (Luck true true true 0 0) c;
            Create (Luck true true true 0 0x101) c; Create (Luck true true true 0x101 0) c;
            Create (Luck true true false 0 0) c; Create (Luck true false true 0 0) c; Delete 0]
    ([], Heap 0 [] false)
  = ([0; 0; 0x101; 0x101; 0x101; 0x102; 0],
     ([Encoder 3 (Some 4) (Some 5)]%nat, Heap 9 [5; 4; 3]%nat false)).
Proof. vm_compute. reflexivity. Qed.
