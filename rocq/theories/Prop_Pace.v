(** How seldom a decoder at the track of a station may call execute() *)
From Verif Require Import Prelude Address SpecCodec SpecTx Tx CodecProofs2 RxState Rx SpecRx SpecExec SpecConf SpecCv SpecBidi SpecSafe Toy
  SpecLayout SpecLayout2 LayoutWitness SpecStation StationProofs2 StationProofs4 StationWitness SpecPace PaceProofs3 PaceWitness.

(** * C84 *)

(** The intervals of a station, whatever it is asked: execute() among any 90 of them (95
    with cutouts), or whenever they add up to the shortest time from the end of a packet
    to the end of the next one, is often enough. The queue never holds more than one
    packet. *)
Theorem C84_enough : forall c ops, config_ok c -> Forall plain_op ops -> (forall bs, In (TBytes bs) ops -> packet_ok bs) ->
  exists xs tx, tx_run (TInit c :: ops) (tx_init_state 4) = Ok ((None, []) :: xs, tx) /\
  forall dos, filter is_receive dos = map OReceive (map fst (intervals xs)) -> ~ In ODisable dos -> paced c dos ->
    never_full dos listener0 /\ (length (l_queue (listen_all dos listener0)) <= 1)%nat.
Proof. exact pace_enough. Qed.
Print Assumptions C84_enough.

(** Then the decoder obeys all packets but the last one at most *)
Theorem C84_obeyed : forall (I : Type) (E : Env I) (m : I -> Z -> Z) able (time : I -> Z),
  keeps_cvs able E m -> short_cv1 E -> clock E time ->
  forall c ops i, 0 <= time i -> config_ok c -> Forall plain_op ops ->
  (forall bs, In (TBytes bs) ops -> packet_ok bs /\ complete bs) ->
  exists h xs tx, tx_run (TInit c :: ops) (tx_init_state 4) = Ok ((None, []) :: xs, tx) /\
  flat_map call_of h = ops /\ flat_map result_of h = xs /\ history_ok c h /\
  forall dos, filter is_receive dos = map OReceive (map fst (intervals xs)) -> ~ In ODisable dos ->
    paced c dos -> on_time dos ->
    exists s es done left, run E (OInit :: dos) (st0 i) = Ok (tt, s, es) /\
      finished c (None :: started h) (length (ticks h)) = done ++ left /\ (length left <= 1)%nat /\
      let x := obey_all (e_east_west E) done (new_view (m i)) in
      Forall (allowed able) (snd x) ->
      seen_in es = snd x /\ (forall a, m (app s) a = v_cvs (fst x) a) /\
      in_service s = v_service (fst x) /\ page s = v_page (fst x).
Proof. exact @pace_obeyed. Qed.
Print Assumptions C84_obeyed.

(** One interval or one microsecond more is not enough: a station that sends idle packets
    only, a decoder that calls execute() right behind each *)
Theorem C84_exact : forall bidi, let c := TxConfig 17 58 100 false bidi in exists xs tx os,
  tx_run (TInit c :: repeat TTransmit (31 * if bidi then 95 else 90)) (tx_init_state 4) = Ok ((None, []) :: xs, tx) /\
  filter is_receive os = map OReceive (map fst (intervals xs)) /\
  executes_every (if bidi then 96 else 91) os /\ executes_within (shortest c + 1) os /\ ~ never_full os listener0.
Proof.
  intros bidi c. destruct (too_late bidi) as (H1 & H2 & H3 & _). fold c in H1, H2, H3.
  destruct bidi; do 2 eexists; exists (behind_each c 31);
    (split; [vm_compute; reflexivity|]); (split; [vm_compute; reflexivity|]); (split; [exact H1|]); split; [exact H2|exact H3|exact H2|exact H3].
Qed.
Print Assumptions C84_exact.

(** ... and packets are lost: 35 of 40 are heard *)
Theorem C84_lost : forall bidi, length (heard (behind_each (TxConfig 17 58 100 false bidi) 40) listener0) = 35%nat.
Proof. intros bidi. destruct (too_late bidi) as (_ & _ & _ & H). exact H. Qed.
Print Assumptions C84_lost.

(** A speed and a CV write, execute() every 6.6 ms *)
Example C84_ex : exists xs tx s es,
  let c := TxConfig 17 58 100 false true in
  let ps := [frame 3 [0x3F; 0x90]; frame 3 [0xEC; 2; 5]; frame 3 [0xEC; 2; 5]] in
  let dos := timed (shortest c) 0 (map fst (intervals xs)) in
  tx_run (TInit c :: map TBytes ps ++ repeat TTransmit 600) (tx_init_state 4) = Ok ((None, []) :: xs, tx) /\
  filter is_receive dos = map OReceive (map fst (intervals xs)) /\ ~ In ODisable dos /\ on_time dos /\
  shortest c = 6615 /\ paced c dos /\ ~ executes_every 76 dos /\
  run careful (OInit :: dos) (st0 (fun a => if a =? 0 then 3 else 0)) = Ok (tt, s, es) /\
  seen_in es = [Told (EDirection 3 true); Told (ESpeed 3 30); Access (Store 2 5)] /\ shown (app s) 2 = 5.
Proof.
  do 4 eexists. cbv zeta. split; [vm_compute; reflexivity|]. split; [apply timed_receives|]. split; [apply timed_no_disable|].
  split; [apply timed_on_time|]. split; [reflexivity|]. split; [right; apply within_ok; vm_compute; reflexivity|].
  split.
  { intros H. match type of H with executes_every 76 ?l =>
      specialize (H [] (firstn 80 l) (skipn 80 l) ltac:(rewrite firstn_skipn; reflexivity)) end.
    set (b := firstn 80 _) in H.
    assert (Hb : forallb is_receive b = true) by (vm_compute; reflexivity).
    assert (Hl : length (filter is_receive b) = 80%nat) by (vm_compute; reflexivity).
    rewrite forallb_forall in Hb. specialize (Hb _ (H ltac:(lia))). discriminate Hb. }
  split; [vm_compute; reflexivity|]. split; vm_compute; reflexivity.
Qed.
