(** Logon over the track: a command station that also sends logon packets, and the decoders at
    its track *)
From Verif Require Import Prelude Address SpecCodec SpecTx Tx RxState Rx SpecRx SpecExec SpecConf SpecCv SpecLogon LogonProofs Toy LogonWitness
  SpecLayout SpecLayout2 LayoutWitness SpecBidi SpecSafe SafeProofs2 SpecStation StationProofs2 StationProofs3 StationWitness SpecNode NodeWitness SessionWitness SpecLine LineProofs2 LineProofs3 LineWitness.

(** * C104 *)

(** Station, track and decoder with automatic logon, whatever packets are queued and whatever
    else is called: the logon packets heard are the logon packets finished on the track, the
    others executed are the others finished, less those still queued, both in order, and what
    the application sees is what the interpreter of C100 makes of them *)
Theorem C104_layout : forall (I : Type) (E : Env I) (m : I -> Z -> Z) able, keeps_cvs able E m ->
  forall c ops xs tx i dos s es,
  config_ok c -> Forall plain_op ops -> (forall bs, In (TBytes bs) ops -> sendable bs) ->
  tx_run (TInit c :: ops) (tx_init_state 4) = Ok ((None, []) :: xs, tx) ->
  filter is_receive dos = map OReceive (map fst (intervals xs)) -> ~ In ODisable dos ->
  never_full dos listener0 -> run E (OInit :: dos) (st0 i) = Ok (tt, s, es) ->
  let ins := inputs dos listener0 in
  let x := attend_all (e_east_west E) (Configured :: ins) (new_node (m i)) in
  exists h, flat_map call_of h = ops /\ flat_map result_of h = xs /\ history_ok c h /\
    filter is_logon (finished c (None :: started h) (length (ticks h))) = heard_in ins /\
    filter (fun p => negb (is_logon p)) (finished c (None :: started h) (length (ticks h))) = taken_in ins ++ r_deque (rxs s) /\
    (Forall (allowed able) (snd x) ->
     seen_in es = snd x /\ (forall a, m (app s) a = v_cvs (n_view (fst x)) a) /\
     own_addresses s = (n_own (fst x), n_consist (fst x), n_logon (fst x)) /\
     is_selected s = n_selected (fst x) /\ is_assigned s = n_assigned (fst x)).
Proof. exact @line. Qed.
Print Assumptions C104_layout.

(** And nothing undefined happens on the way, if behind each logon packet channel 2 is sent
    before the next duration, besides what C78 asks for *)
Theorem C104_defined : forall (I : Type) (E : Env I) (time : I -> Z), short_cv1 E -> clock E time ->
  forall c ops i, 0 <= time i -> config_ok c -> Forall plain_op ops ->
  (forall bs, In (TBytes bs) ops -> sendable bs /\ complete bs) ->
  exists xs tx, tx_run (TInit c :: ops) (tx_init_state 4) = Ok ((None, []) :: xs, tx) /\
  forall dos, filter is_receive dos = map OReceive (map fst (intervals xs)) -> ~ In ODisable dos ->
    never_full dos listener0 -> on_time dos -> fetched dos -> exists s es, run E (OInit :: dos) (st0 i) = Ok (tt, s, es).
Proof. exact @line_defined. Qed.
Print Assumptions C104_defined.

(** A locomotive is driven under its own number, then handed out 1000 and driven under that;
    the packet for 3 behind has no effect any more *)
Example C104_ex : exists xs tx s es,
  let c := TxConfig 20 57 110 true true in
  let ps := [frame 3 [0x3F; 0x90]; select_1234 145; assign_to 0xC3 0xE8] in
  let qs := [NodeWitness.loco 1000 [0x3F; 0x85]; frame 3 [0x3F; 0x95]] in
  let ops := map TBytes ps ++ repeat TTransmit 1100 ++ map TBytes qs ++ repeat TTransmit 700 in
  let dos := attended (map fst (intervals xs)) in
  Forall plain_op ops /\ (forall bs, In (TBytes bs) ops -> sendable bs) /\ Forall generated (ps ++ qs) /\
  tx_run (TInit c :: ops) (tx_init_state 4) = Ok ((None, []) :: xs, tx) /\
  filter is_receive dos = map OReceive (map fst (intervals xs)) /\ ~ In ODisable dos /\ never_full dos listener0 /\
  on_time dos /\ fetched dos /\
  run toy (OInit :: dos) (st0 ready_made) = Ok (tt, s, es) /\
  heard_in (inputs dos listener0) = [select_1234 145; assign_to 0xC3 0xE8] /\
  filter not_idle (taken_in (inputs dos listener0)) = frame 3 [0x3F; 0x90] :: qs /\
  filter (fun y => match y with Told _ => true | _ => false end) (seen_in es) =
    map Told [EDirection 3 true; ESpeed 3 30; EDirection 3 true; ESpeed 3 8].
Proof.
  do 4 eexists. cbv zeta. split.
  { rewrite !Forall_app. repeat split;
      first [ apply Forall_forall; intros o Ho; apply repeat_spec in Ho; subst o; exact Logic.I
            | cbn [map]; repeat (apply Forall_cons; [vm_compute; lia|]); apply Forall_nil ]. }
  split.
  { intros bs H. rewrite !in_app_iff in H. cbn [map In] in H.
    destruct H as [H|[H|[H|H]]]; [| apply repeat_spec in H; discriminate H| |apply repeat_spec in H; discriminate H];
      repeat (destruct H as [H|H]; [injection H as <-; split; [apply Forall_forall; intros b Hb; vm_compute in Hb; unfold byte; lia|];
        split; [vm_compute; lia|reflexivity]|]); destruct H. }
  split.
  { cbn [List.app]. constructor; [exact (gen_loco 3 (CSpeed126 0x90) _ ltac:(lia) ltac:(cbn; unfold byte; lia) eq_refl)|].
    constructor; [exact (gen_select 145 0x01020304 0xFF _ ltac:(lia) ltac:(lia) ltac:(unfold byte; lia) eq_refl)|].
    constructor; [exact (gen_assign 145 0x01020304 0xC3E8 _ ltac:(lia) ltac:(lia) ltac:(lia) eq_refl)|].
    constructor; [exact (gen_loco 1000 (CSpeed126 0x85) _ ltac:(lia) ltac:(cbn; unfold byte; lia) eq_refl)|].
    constructor; [exact (gen_loco 3 (CSpeed126 0x95) _ ltac:(lia) ltac:(cbn; unfold byte; lia) eq_refl)|constructor]. }
  split; [vm_compute; reflexivity|]. split; [apply serving_receives|]. split; [intros H; apply serving_ops in H; destruct H as [[t H]|[H|[H|H]]]; discriminate H|].
  split; [apply roomy_spec; vm_compute; reflexivity|]. split; [apply timely_spec; vm_compute; reflexivity|].
  split; [apply fetching_spec; vm_compute; reflexivity|].
  split; [vm_compute; reflexivity|]. split; [vm_compute; reflexivity|]. split; vm_compute; reflexivity.
Qed.

(** * C105 *)

(** A station that queues at most three packets at a time and has sent them before the next
    ones: it greets with ENABLE, then offers an address to one decoder after the other. Every
    decoder on the track with logon enabled whose calls keep up and whose ID is on the list ends
    up with the address meant for it, whatever the application does; no order was passed on. *)
Theorem C105_fleet : forall c gs n pre xs, config_ok c -> Forall leisurely gs -> (782 < n)%nat ->
  concat (map fst gs) = pre ++ flat_map offered xs -> Forall (fun p => sendable p /\ is_logon p = true) (concat (map fst gs)) ->
  Forall (fun p => 240 <= nth 1 p 0) pre -> Forall proper xs -> NoDup (map of_id xs) ->
  exists rs tx, tx_run (TInit c :: flat_map calls gs ++ repeat TTransmit n) (tx_init_state 4) = Ok ((None, []) :: rs, tx) /\
  forall x, In x xs -> forall (I : Type) (E : Env I) (m : I -> Z -> Z) able, keeps_cvs able E m ->
  forall i dos s es, logon_enabled (switches (m i)) = true -> did (switches (m i)) = of_id x ->
    filter is_receive dos = map OReceive (map fst (intervals rs)) -> ~ In ODisable dos -> ~ In OInit dos ->
    never_full dos listener0 -> run E (OInit :: dos) (st0 i) = Ok (tt, s, es) ->
    Forall (allowed able) (snd (attend_all (e_east_west E) (inputs (OInit :: dos) listener0) (new_node (m i)))) ->
    logon (r_addrs (rxs s)) = of_address x /\ is_selected s = true /\ is_assigned s = true /\ untold (seen_in es).
Proof. exact fleet_logged_on. Qed.
Print Assumptions C105_fleet.

(** The same for one decoder, with any logon packets for others in between and behind *)
Theorem C105_one : forall (I : Type) (E : Env I) (m : I -> Z -> Z) able, keeps_cvs able E m ->
  forall c gs n id A pre sel mid asg post a b i, config_ok c -> Forall leisurely gs -> (782 < n)%nat ->
  concat (map fst gs) = pre ++ sel :: mid ++ asg :: post -> Forall (fun p => sendable p /\ is_logon p = true) (concat (map fst gs)) ->
  Forall (not_for id) (pre ++ mid ++ post) -> says sel (Select id) -> undamaged sel -> says asg (Assign id a b) -> undamaged asg ->
  understood a b (nth 9 asg 0) = Some A -> aval A <> 0 -> logon_enabled (switches (m i)) = true -> did (switches (m i)) = id ->
  exists xs tx, tx_run (TInit c :: flat_map calls gs ++ repeat TTransmit n) (tx_init_state 4) = Ok ((None, []) :: xs, tx) /\
  forall dos s es, filter is_receive dos = map OReceive (map fst (intervals xs)) -> ~ In ODisable dos -> ~ In OInit dos ->
    never_full dos listener0 -> run E (OInit :: dos) (st0 i) = Ok (tt, s, es) ->
    Forall (allowed able) (snd (attend_all (e_east_west E) (inputs (OInit :: dos) listener0) (new_node (m i)))) ->
    logon (r_addrs (rxs s)) = A /\ is_selected s = true /\ is_assigned s = true /\ untold (seen_in es).
Proof. exact @logged_on_over_track. Qed.
Print Assumptions C105_one.

(** Two decoders *)
Example C105_ex :
  let c := TxConfig 20 57 110 true true in
  let xs := [Offer [1; 2; 3; 4] (select_1234 145) (assign_to 0xC3 0xE8) (Addr 1000 ATLong false);
             Offer [9; 9; 9; 9] select_other assign_other (Addr 200 ATLong false)] in
  let gs := [([enable_5; select_1234 145], 800); ([assign_to 0xC3 0xE8; select_other; assign_other], 1200)]%nat in
  Forall leisurely gs /\ concat (map fst gs) = [enable_5] ++ flat_map offered xs /\
  Forall (fun p => sendable p /\ is_logon p = true) (concat (map fst gs)) /\ Forall (fun p => 240 <= nth 1 p 0) [enable_5] /\
  Forall proper xs /\ NoDup (map of_id xs) /\
  exists rs tx s es s' es', let dos := attended (map fst (intervals rs)) in
    tx_run (TInit c :: flat_map calls gs ++ repeat TTransmit 783) (tx_init_state 4) = Ok ((None, []) :: rs, tx) /\
    ~ In OInit dos /\ never_full dos listener0 /\
    run toy (OInit :: dos) (st0 ready_made) = Ok (tt, s, es) /\ run toy (OInit :: dos) (st0 other_made) = Ok (tt, s', es') /\
    logon (r_addrs (rxs s)) = Addr 1000 ATLong false /\ logon (r_addrs (rxs s')) = Addr 200 ATLong false.
Proof.
  intros c xs gs. split; [repeat (constructor; [unfold leisurely; cbn; lia|]); constructor|]. split; [reflexivity|].
  split. { unfold gs. cbn [map fst concat List.app]. repeat (apply Forall_cons; [split; [|reflexivity];
    split; [apply Forall_forall; intros b Hb; vm_compute in Hb; unfold byte; lia|split; [vm_compute; lia|reflexivity]]|]). constructor. }
  split; [constructor; [vm_compute; discriminate|constructor]|].
  split.
  { constructor; [|constructor; [|constructor]].
    - split; [exact (says_select 0 145 [1; 2; 3; 4] (skipn 7 (select_1234 145)) ltac:(lia) eq_refl)|]. split; [right; vm_compute; reflexivity|]. exists 0xC3, 0xE8.
      split; [exact (says_assign 0 145 [1; 2; 3; 4] 0xC3 0xE8 _ [_] ltac:(lia) eq_refl)|]. split; [right; vm_compute; reflexivity|]. split; [reflexivity|]. cbn. lia.
    - split; [exact (says_select 0 145 [9; 9; 9; 9] (skipn 7 select_other) ltac:(lia) eq_refl)|]. split; [right; vm_compute; reflexivity|]. exists 0xC0, 200.
      split; [exact (says_assign 0 145 [9; 9; 9; 9] 0xC0 200 _ [_] ltac:(lia) eq_refl)|]. split; [right; vm_compute; reflexivity|]. split; [reflexivity|]. cbn. lia. }
  split; [constructor; [cbn [In map of_id]; intuition congruence|]; constructor; [cbn [In]; tauto|constructor]|].
  do 6 eexists. split; [vm_compute; reflexivity|]. split.
  { intros H. apply serving_ops in H. destruct H as [[t H]|[H|[H|H]]]; discriminate H. }
  split; [apply roomy_spec; vm_compute; reflexivity|].
  split; [vm_compute; reflexivity|]. split; [vm_compute; reflexivity|]. split; vm_compute; reflexivity.
Qed.
