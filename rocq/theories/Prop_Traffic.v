(** Several decoders at one track, and reading their CVs over it *)
From Verif Require Import Prelude Address SpecCodec SpecTx Tx Datagram CodecProofs2 RxState Rx SpecRx SpecExec SpecConf SpecCv SpecLogon SpecBidi SpecSafe Toy
  SpecLayout SpecLayout2 LayoutWitness BidiWitness SpecStation StationWitness SpecDialog DialogWitness SpecTraffic TrafficProofs TrafficProofs2 ReadProofs2.

(** * C95 *)

(** A station gives orders to many locomotives. The application of one decoder sees what
    it would see if only the orders to its number, to its consist and to all had been
    given. *)
Theorem C95_done : forall (I : Type) (E : Env I) (m : I -> Z -> Z) able (time : I -> Z), keeps_cvs able E m -> clock E time ->
  forall c os pss ks n i, 0 <= time i -> m i 0 < 128 -> config_ok c -> Forall order_ok os -> Forall2 packets_for os pss ->
  length ks = length os -> Forall (fun k => (782 < k)%nat) ks -> (782 < n)%nat ->
  let os' := filter (mine (m i)) os in Forall keeps_number os' ->
  Forall (allowed able) (snd (carry_out_all os' (m i, None))) ->
  exists xs tx, tx_run (TInit c :: flat_map calls (combine pss ks) ++ repeat TTransmit n) (tx_init_state 4)
                = Ok ((None, []) :: xs, tx) /\
  forall dos, filter is_receive dos = map OReceive (map fst (intervals xs)) -> ~ In ODisable dos ->
    executes_every 76 dos -> on_time dos ->
    exists s es, run E (OInit :: dos) (st0 i) = Ok (tt, s, es) /\
      seen_in es = snd (carry_out_all os' (m i, None)) /\
      forall a, m (app s) a = fst (fst (carry_out_all os' (m i, None))) a.
Proof. exact @mine_done. Qed.
Print Assumptions C95_done.

(** Two stations of different timing give the same orders to this decoder and any others
    to others: the decoder does the same *)
Theorem C95_private : forall (I : Type) (E : Env I) (m : I -> Z -> Z) able (time : I -> Z), keeps_cvs able E m -> clock E time ->
  forall c1 os1 pss1 ks1 n1 c2 os2 pss2 ks2 n2 i, 0 <= time i -> m i 0 < 128 ->
  config_ok c1 -> Forall order_ok os1 -> Forall2 packets_for os1 pss1 -> length ks1 = length os1 ->
  Forall (fun k => (782 < k)%nat) ks1 -> (782 < n1)%nat ->
  config_ok c2 -> Forall order_ok os2 -> Forall2 packets_for os2 pss2 -> length ks2 = length os2 ->
  Forall (fun k => (782 < k)%nat) ks2 -> (782 < n2)%nat ->
  filter (mine (m i)) os1 = filter (mine (m i)) os2 -> Forall keeps_number (filter (mine (m i)) os1) ->
  Forall (allowed able) (snd (carry_out_all (filter (mine (m i)) os1) (m i, None))) ->
  exists xs1 tx1 xs2 tx2,
  tx_run (TInit c1 :: flat_map calls (combine pss1 ks1) ++ repeat TTransmit n1) (tx_init_state 4) = Ok ((None, []) :: xs1, tx1) /\
  tx_run (TInit c2 :: flat_map calls (combine pss2 ks2) ++ repeat TTransmit n2) (tx_init_state 4) = Ok ((None, []) :: xs2, tx2) /\
  forall dos1 dos2,
    filter is_receive dos1 = map OReceive (map fst (intervals xs1)) -> ~ In ODisable dos1 -> executes_every 76 dos1 -> on_time dos1 ->
    filter is_receive dos2 = map OReceive (map fst (intervals xs2)) -> ~ In ODisable dos2 -> executes_every 76 dos2 -> on_time dos2 ->
    exists s1 es1 s2 es2, run E (OInit :: dos1) (st0 i) = Ok (tt, s1, es1) /\ run E (OInit :: dos2) (st0 i) = Ok (tt, s2, es2) /\
      seen_in es1 = seen_in es2 /\ forall a, m (app s1) a = m (app s2) a.
Proof. exact @private. Qed.
Print Assumptions C95_private.

(** Orders to 3 and 7: with or without those to 7, locomotive 3 does the same. The write to
    CV1 is one to 7. *)
Example C95_ex : exists xs tx s es pss pss2,
  let os := [(3, CSpeed126 40); (7, CWrite 0 9); (3, CWrite 2 77); (7, CF4_F0 3); (0, CF4_F0 5)] in
  let os2 := [(3, CSpeed126 40); (3, CWrite 2 77); (0, CF4_F0 5); (8, CSpeed126 1)] in
  let m := fun (c : Z -> Z) a => u8 (c a) in let ks := [783; 800; 783; 900; 783]%nat in
  let dos := prompt 70 70 (map fst (intervals xs)) in
  keeps_cvs all_cvs toy m /\ clock toy (fun _ => 0) /\ m factory 0 = 3 /\ config_ok (TxConfig 17 58 100 false true) /\
  Forall order_ok os /\ Forall2 packets_for os pss /\ Forall order_ok os2 /\ Forall2 packets_for os2 pss2 /\
  filter (mine (m factory)) os = [(3, CSpeed126 40); (3, CWrite 2 77); (0, CF4_F0 5)] /\ filter (mine (m factory)) os2 = filter (mine (m factory)) os /\
  Forall keeps_number (filter (mine (m factory)) os) /\ ~ Forall keeps_number os /\
  Forall (allowed all_cvs) (snd (carry_out_all (filter (mine (m factory)) os) (m factory, None))) /\
  tx_run (TInit (TxConfig 17 58 100 false true) :: flat_map calls (combine pss ks) ++ repeat TTransmit 783) (tx_init_state 4) = Ok ((None, []) :: xs, tx) /\
  filter is_receive dos = map OReceive (map fst (intervals xs)) /\ ~ In ODisable dos /\ executes_every 76 dos /\ on_time dos /\
  run toy (OInit :: dos) (st0 factory) = Ok (tt, s, es) /\
  seen_in es = snd (carry_out_all os2 (m factory, None)) /\ length (seen_in es) = 4%nat /\ u8 (app s 2) = 77 /\ u8 (app s 0) = 3.
Proof.
  do 4 eexists. exists [[frame 3 [0x3F; 0x28]]; [frame 7 [0xEC; 0; 9]; frame 7 [0xEC; 0; 9]]; [frame 3 [0xEC; 2; 77]; frame 3 [0xEC; 2; 77]];
    [frame 7 [0x91]]; [frame 0 [0x92]]].
  exists [[frame 3 [0x3F; 0x28]]; [frame 3 [0xEC; 2; 77]; frame 3 [0xEC; 2; 77]]; [frame 0 [0x92]]; [frame 8 [0x3F; 1]]]. cbv zeta.
  split; [exact toy_keeps|]. split; [unfold clock; cbn; repeat split; intros; lia|]. split; [reflexivity|]. split; [unfold config_ok; cbn; lia|].
  split. { repeat (apply Forall_cons; [split; cbn; unfold byte; lia|]). apply Forall_nil. }
  split. { repeat (apply Forall2_cons; [eexists; split; vm_compute; reflexivity|]). apply Forall2_nil. }
  split. { repeat (apply Forall_cons; [split; cbn; unfold byte; lia|]). apply Forall_nil. }
  split. { repeat (apply Forall2_cons; [eexists; split; vm_compute; reflexivity|]). apply Forall2_nil. }
  split; [vm_compute; reflexivity|]. split; [vm_compute; reflexivity|].
  split. { match goal with |- Forall _ ?x => let y := eval vm_compute in x in replace x with y by (vm_compute; reflexivity) end.
    repeat (apply Forall_cons; [cbn; intuition discriminate|]). apply Forall_nil. }
  split. { intros H. apply Forall_inv_tail, Forall_inv in H. apply H. cbn. auto. }
  split; [accesses_allowed|]. split; [vm_compute; reflexivity|].
  split; [apply prompt_receives|]. split; [apply prompt_no_disable|]. split; [apply gaps_every; vm_compute; reflexivity|]. split; [apply prompt_on_time|].
  split; [vm_compute; reflexivity|]. split; [vm_compute; reflexivity|]. split; [vm_compute; reflexivity|]. split; vm_compute; reflexivity.
Qed.

(** * C96 *)

(** Two decoders at the same track that may speak for different numbers: in no cutout both
    send in channel 2, unless it is behind a packet to all *)
Theorem C96_one : forall (I J : Type) (E : Env I) (F : Env J) (m : I -> Z -> Z) (k : J -> Z -> Z) able1 able2,
  keeps_cvs able1 E m -> keeps_cvs able2 F k ->
  forall os1 os2 i j s1 es1 s2 es2, run E (OInit :: os1) (st0 i) = Ok (tt, s1, es1) -> run F (OInit :: os2) (st0 j) = Ok (tt, s2, es2) ->
  filter is_receive os1 = filter is_receive os2 -> executes_every 76 os1 -> executes_every 76 os2 -> ~ In ODisable os1 -> ~ In ODisable os2 ->
  on_time os1 -> on_time os2 -> logons os1 listener0 = [] -> logons os2 listener0 = [] ->
  Forall (allowed able1) (snd (obey_all (e_east_west E) (SpecRx.taken os1 listener0) (new_view (m i)))) ->
  Forall (allowed able2) (snd (obey_all (e_east_west F) (SpecRx.taken os2 listener0) (new_view (k j)))) ->
  (forall n, speaks_for (m (app s1)) n && speaks_for (k (app s2)) n = false) ->
  forall s1' e1 s2' e2, biDiChannel2 E s1 = Ok (tt, s1', e1) -> biDiChannel2 F s2 = Ok (tt, s2', e2) ->
  sent e1 = [] \/ sent e2 = [] \/
  exists p, last_heard os1 listener0 None = Some p /\ last_heard os2 listener0 None = Some p /\ nth 0 p 0 = 0.
Proof. exact one_speaker. Qed.
Print Assumptions C96_one.

(** Locomotives 3 and 7: 3 answers, 7 does not. Put both into consist 10 with CV20 bit 7 set
    and they do speak at the same time: then [speaks_for] holds of 10 for both. *)
Example C96_ex : exists s1 es1 s2 es2 s3 es3 s4 es4,
  let seven := put factory 0 7 in let m := fun (c : Z -> Z) a => u8 (c a) in
  let line p := half_bits 58 100 (track_bits 14 p) in
  let os := prompt 70 70 (line (frame 7 [0x3F; 0x28]) ++ line read3) in
  run toy (OInit :: os) (st0 factory) = Ok (tt, s1, es1) /\ run toy (OInit :: os) (st0 seven) = Ok (tt, s2, es2) /\
  executes_every 76 os /\ ~ In ODisable os /\ on_time os /\ logons os listener0 = [] /\
  Forall (allowed all_cvs) (snd (obey_all false (SpecRx.taken os listener0) (new_view (m factory)))) /\
  Forall (allowed all_cvs) (snd (obey_all false (SpecRx.taken os listener0) (new_view (m seven)))) /\
  (forall n, speaks_for (m (app s1)) n && speaks_for (m (app s2)) n = false) /\
  speaks2 s1 = Some [[0x0F]] /\ speaks2 s2 = Some [] /\
  let both (c : Z -> Z) := put (put c 18 10) 19 0x80 in
  let os3 := ODatagram [DynKmh 5] :: prompt 70 70 (line (frame 10 [0x3F; 0x28])) in
  run toy (OInit :: os3) (st0 (both factory)) = Ok (tt, s3, es3) /\ run toy (OInit :: os3) (st0 (both seven)) = Ok (tt, s4, es4) /\
  speaks_for (m (app s3)) 10 = true /\ speaks_for (m (app s4)) 10 = true /\
  exists d, speaks2 s3 = Some [d] /\ speaks2 s4 = Some [d].
Proof.
  do 8 eexists. cbv zeta. split; [vm_compute; reflexivity|]. split; [vm_compute; reflexivity|].
  split; [apply gaps_every; vm_compute; reflexivity|]. split; [apply prompt_no_disable|]. split; [apply prompt_on_time|].
  split; [vm_compute; reflexivity|]. split; [accesses_allowed|]. split; [accesses_allowed|].
  split.
  { intros n. unfold speaks_for. repeat match goal with |- context [own_address ?c] => let y := eval vm_compute in (own_address c) in replace (own_address c) with y by (vm_compute; reflexivity) end.
    repeat match goal with |- context [bit_of ?x 7] => replace (bit_of x 7) with false by (vm_compute; reflexivity) end.
    unfold has_number. cbn [atyp aval]. rewrite !andb_false_r. cbn [andb orb]. lia. }
  split; [vm_compute; reflexivity|]. split; [vm_compute; reflexivity|].
  split; [vm_compute; reflexivity|]. split; [vm_compute; reflexivity|]. split; [vm_compute; reflexivity|]. split; [vm_compute; reflexivity|].
  eexists. split; vm_compute; reflexivity.
Qed.

(** * C97 *)

(** A station has a CV or a bit of it read by two orders, whatever was ordered before and
    whatever else is ordered in between, except of the CVs of this decoder: the cutout
    behind the second of them carries the value *)
Theorem C97_read : forall (I : Type) (E : Env I) (m : I -> Z -> Z) able (time : I -> Z), keeps_cvs able E m -> clock E time ->
  forall c os1 os2 n d pss ks k i r, 0 <= time i -> m i 0 < 128 -> config_ok c ->
  let os := os1 ++ (n, d) :: os2 ++ [(n, d)] in
  Forall order_ok os -> Forall2 packets_for os pss -> length ks = length os -> Forall (fun j => (782 < j)%nat) ks -> (782 < k)%nat ->
  Forall (allowed (fun x => able x /\ sensible x)) (snd (carry_out_all os1 (m i, None))) ->
  let cvs := fst (fst (carry_out_all os1 (m i, None))) in
  value_read d cvs = Some r -> 0 < n -> has_number (own_address cvs) n = true -> n <> aval (consist_address cvs) ->
  cvs_locked (switches cvs) = false -> data_channel cvs = true ->
  Forall (fun o => mine cvs o = true -> on_cvs (snd o) = false) os2 ->
  exists xs tx, tx_run (TInit c :: flat_map calls (combine pss ks) ++ repeat TTransmit k) (tx_init_state 4)
                = Ok ((None, []) :: xs, tx) /\
  forall dos, filter is_receive dos = map OReceive (map fst (intervals xs)) -> ~ In ODisable dos ->
    executes_every 76 dos -> on_time dos ->
    exists d1 d2 s es s' dg, dos = d1 ++ d2 /\ filter not_idle (heard d1 listener0) = concat pss /\
      l_fresh (listen_all d1 listener0) = true /\ run E (OInit :: d1) (st0 i) = Ok (tt, s, es) /\
      biDiChannel2 E s = Ok (tt, s', [ETransmitBiDi dg]) /\ make_data (decode_datagram dg) = Ok r.
Proof. exact @station_reads. Qed.
Print Assumptions C97_read.

(** CV3 is written and read; in between locomotive 3 is driven and CV3 of 7 is written *)
Example C97_ex : exists xs tx pss,
  let os1 := [(3, CWrite 2 77)] in let d := CVerify 2 0 in let os2 := [(3, CSpeed126 40); (7, CWrite 2 9)] in
  let os := os1 ++ (3, d) :: os2 ++ [(3, d)] in
  let m := fun (c : Z -> Z) a => u8 (c a) in let ks := [783; 800; 783; 900; 783]%nat in
  let dos := prompt 70 70 (map fst (intervals xs)) in
  let cvs := fst (fst (carry_out_all os1 (m factory, None))) in
  keeps_cvs all_cvs toy m /\ clock toy (fun _ => 0) /\ m factory 0 = 3 /\ config_ok (TxConfig 17 58 100 false true) /\
  Forall order_ok os /\ Forall2 packets_for os pss /\
  Forall (allowed (fun x => all_cvs x /\ sensible x)) (snd (carry_out_all os1 (m factory, None))) /\
  value_read d cvs = Some 77 /\ m factory 2 = 0 /\ has_number (own_address cvs) 3 = true /\ aval (consist_address cvs) = 0 /\
  cvs_locked (switches cvs) = false /\ data_channel cvs = true /\ Forall (fun o => mine cvs o = true -> on_cvs (snd o) = false) os2 /\
  tx_run (TInit (TxConfig 17 58 100 false true) :: flat_map calls (combine pss ks) ++ repeat TTransmit 783) (tx_init_state 4) = Ok ((None, []) :: xs, tx) /\
  filter is_receive dos = map OReceive (map fst (intervals xs)) /\ ~ In ODisable dos /\ executes_every 76 dos /\ on_time dos.
Proof.
  do 2 eexists. exists [[frame 3 [0xEC; 2; 77]; frame 3 [0xEC; 2; 77]]; [read3]; [frame 3 [0x3F; 0x28]]; [frame 7 [0xEC; 2; 9]; frame 7 [0xEC; 2; 9]]; [read3]].
  cbv zeta.
  split; [exact toy_keeps|]. split; [unfold clock; cbn; repeat split; intros; lia|]. split; [reflexivity|]. split; [unfold config_ok; cbn; lia|].
  split. { repeat (apply Forall_cons; [split; cbn; unfold byte; lia|]). apply Forall_nil. }
  split. { repeat (apply Forall2_cons; [eexists; split; vm_compute; reflexivity|]). apply Forall2_nil. }
  split. { match goal with |- Forall _ ?x => let y := eval vm_compute in x in replace x with y by (vm_compute; reflexivity) end.
    repeat (apply Forall_cons; [intros _; split; [unfold all_cvs; cbn; lia|cbn; try exact Logic.I; lia]|]). apply Forall_nil. }
  do 6 (split; [vm_compute; reflexivity|]).
  split. { apply Forall_cons; [intros _; reflexivity|]. apply Forall_cons; [vm_compute; discriminate|]. apply Forall_nil. }
  split; [vm_compute; reflexivity|].
  split; [apply prompt_receives|]. split; [apply prompt_no_disable|]. split; [apply gaps_every; vm_compute; reflexivity|apply prompt_on_time].
Qed.
