(** A decoder that is switched on, or disturbed, while a station is sending *)
From Verif Require Import Prelude Address SpecCodec SpecTx Tx CodecProofs2 RxState Rx SpecRx SpecExec SpecConf SpecCv SpecBidi SpecSafe Toy
  SpecLayout SpecLayout2 LayoutWitness SpecStation StationProofs2 StationWitness SpecLate LateProofs2 LateWitness.

(** * C87 *)

(** A decoder that is switched on after any number of intervals takes the packets from the
    first one on of which it gets 20 half bits of the preamble, and nothing else *)
Theorem C87_late : forall (I : Type) (E : Env I) (m : I -> Z -> Z) able (time : I -> Z),
  keeps_cvs able E m -> short_cv1 E -> clock E time ->
  forall c ops i, 0 <= time i -> config_ok c -> Forall plain_op ops ->
  (forall bs, In (TBytes bs) ops -> packet_ok bs /\ complete bs) ->
  exists h xs tx, tx_run (TInit c :: ops) (tx_init_state 4) = Ok ((None, []) :: xs, tx) /\
  flat_map call_of h = ops /\ flat_map result_of h = xs /\ history_ok c h /\
  forall late dos, (late <= length (intervals xs))%nat ->
    filter is_receive dos = map OReceive (map fst (skipn late (intervals xs))) -> ~ In ODisable dos ->
    never_full dos listener0 -> on_time dos ->
    exists s es, run E (OInit :: dos) (st0 i) = Ok (tt, s, es) /\
      skipn (missed c (None :: started h) late) (finished c (None :: started h) (length (ticks h))) =
        SpecRx.taken dos listener0 ++ r_deque (rxs s) /\
      let x := obey_all (e_east_west E) (SpecRx.taken dos listener0) (new_view (m i)) in
      Forall (allowed able) (snd x) ->
      seen_in es = snd x /\ (forall a, m (app s) a = v_cvs (fst x) a) /\
      in_service s = v_service (fst x) /\ page s = v_page (fst x).
Proof. exact @late_obeyed. Qed.
Print Assumptions C87_late.

(** A speed and a write, sent behind an idle packet. Switched on after 200 intervals the
    decoder has missed the idle packet and the speed, and writes. *)
Example C87_ex : exists xs tx s es,
  let c := TxConfig 17 58 100 false true in
  let ps := [frame 3 [0x3F; 0x90]; frame 3 [0xEC; 2; 5]; frame 3 [0xEC; 2; 5]] in
  let dos := prompt 40 40 (map fst (skipn 200 (intervals xs))) in
  tx_run (TInit c :: map TBytes ps ++ repeat TTransmit 700) (tx_init_state 4) = Ok ((None, []) :: xs, tx) /\
  (200 <= length (intervals xs))%nat /\
  filter is_receive dos = map OReceive (map fst (skipn 200 (intervals xs))) /\ ~ In ODisable dos /\
  never_full dos listener0 /\ on_time dos /\
  missed c (None :: map Some ps) 14 = 0%nat /\ missed c (None :: map Some ps) 15 = 1%nat /\
  missed c (None :: map Some ps) 200 = 2%nat /\
  run careful (OInit :: dos) (st0 (fun a => if a =? 0 then 3 else 0)) = Ok (tt, s, es) /\
  SpecRx.taken dos listener0 = [frame 3 [0xEC; 2; 5]; frame 3 [0xEC; 2; 5]; [0xFF; 0; 0xFF]; [0xFF; 0; 0xFF]] /\
  seen_in es = [Access (Store 2 5)] /\ shown (app s) 2 = 5.
Proof.
  do 4 eexists. cbv zeta. split; [vm_compute; reflexivity|]. split; [vm_compute; repeat constructor|].
  split; [apply prompt_receives|]. split; [apply prompt_no_disable|].
  split; [apply prompt_enough, gaps_every; vm_compute; reflexivity|]. split; [apply prompt_on_time|].
  repeat (split; [vm_compute; reflexivity|]). vm_compute; reflexivity.
Qed.

(** * C88 *)

(** After anything a decoder has heard, switched itself on or off and executed: of a
    station's packets at most the first one is lost, and none if its preamble has 20 bits.
    Before them at most one packet is heard that was never sent. *)
Theorem C88_disturbed : forall (I : Type) (E : Env I) i before s1 e1 c ps n dos s es,
  config_ok c -> Forall acceptable ps ->
  run E before (st0 i) = Ok (tt, s1, e1) -> run E dos s1 = Ok (tt, s, es) ->
  filter is_receive dos = map OReceive (firstn n (map fst (flat_map (on_track c) ps))) ->
  ~ In ODisable dos -> let l := listen_all before listener0 in never_full dos l ->
  exists x k, heard dos l = x ++ skipn k (finished c ps n) /\ (length x <= 1)%nat /\ (k <= 1)%nat /\
    (k = 1%nat -> exists p ps', ps = p :: ps' /\ (preamble c p < 20)%nat).
Proof. exact @disturbed. Qed.
Print Assumptions C88_disturbed.

(** It happens. A packet for address 3 breaks off behind its second byte, and the preamble
    of the next packet supplies the check byte: three bytes nobody has sent are taken for
    a packet, and with a preamble of less than 19 bits the next packet is lost. *)
Theorem C88_reached : exists before, Forall (hears_after before 19 [[3; 0xFC; 0xFF]]) [17; 18; 19; 20].
Proof. eexists. exact broken_off. Qed.
Print Assumptions C88_reached.

(** A preamble and half a start bit: here it takes 20 bits *)
Theorem C88_exact : exists before, Forall (hears_after before 20 []) [17; 18; 19; 20].
Proof. eexists. exact half_start. Qed.
Print Assumptions C88_exact.
