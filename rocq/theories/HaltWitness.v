(** Runs for property C119 *)
From Verif Require Import Prelude Address SpecCodec SpecTx Tx CodecProofs2 RxState Rx SpecRx SpecExec SpecConf SpecCv SpecBidi SpecSafe Toy
  SpecLayout SpecLayout2 LayoutWitness SpecStation StationProofs2 StationProofs4 StationWitness SpecPace PaceWitness SpecLatency SpecReact SpecHalt.

Lemma stop61 : stops_all (frame 0 [0x61]).
Proof. split; [cbn; auto|]. split; [reflexivity|]. right. exists 0x61, [0x61]. split; [reflexivity|]. split; [lia|reflexivity]. Qed.
Lemma stop81 : stops_all (frame 0 [0x3F; 0x81]).
Proof. split; [cbn; auto|]. split; [reflexivity|]. left. exists 0x81, [0xBE]. split; reflexivity. Qed.

Lemma in_ticks : forall p n, ~ In (TBytes p) (repeat TTransmit n).
Proof. intros p n H. apply repeat_spec in H. discriminate H. Qed.

Definition answers_of (l : res (list tx_out * tx_state)) : list tx_out := match l with Ok (_ :: l, _) => l | _ => [] end.

Lemma reset_swallows : exists xs1 x xs2 tx dos s es,
  let c := TxConfig 17 58 100 false true in
  let ops1 := [TBytes [0; 0; 0]] in let bs := frame 0 [0x3F; 0x81] in let ops2 := repeat TTransmit 2000 in
  config_ok c /\ Forall plain_op (ops1 ++ TBytes bs :: ops2) /\
  (forall p, In (TBytes p) (ops1 ++ TBytes bs :: ops2) -> packet_ok p /\ complete p) /\ stops_all bs /\
  tx_run (TInit c :: ops1 ++ TBytes bs :: ops2) (tx_init_state 4) = Ok ((None, []) :: xs1 ++ x :: xs2, tx) /\ length xs1 = length ops1 /\
  4 * longest c <= lasting (intervals xs2) /\
  filter is_receive dos = map OReceive (map fst (intervals (xs1 ++ x :: xs2))) /\ ~ In ODisable dos /\ paced c dos /\ on_time dos /\
  run careful (OInit :: dos) (st0 (fun a => if a =? 0 then 3 else 0)) = Ok (tt, s, es) /\ drives es = [] /\
  seen_in es = [Told (EServiceModeHook true); Told (EServiceModeHook false)].
Proof.
  cbv zeta.
  set (l := answers_of (tx_run (TInit (TxConfig 17 58 100 false true) :: [TBytes [0; 0; 0]] ++ TBytes (frame 0 [0x3F; 0x81]) :: repeat TTransmit 2000) (tx_init_state 4))).
  exists (firstn 1 l), (None, []), (skipn 2 l). eexists.
  exists (timed (shortest (TxConfig 17 58 100 false true)) 0 (map fst (intervals (firstn 1 l ++ (None, []) :: skipn 2 l)))). do 2 eexists.
  split; [unfold config_ok; cbn; lia|]. split.
  { cbn [List.app]. constructor; [cbn; lia|]. constructor; [cbn; lia|]. apply Forall_forall. intros o Ho. apply repeat_spec in Ho. subst. exact Logic.I. }
  split.
  { intros p [H|[H|H]]; [| |exfalso; exact (in_ticks _ _ H)]; injection H as <-.
    - split; [unfold packet_ok; split; [vm_compute; repeat (constructor; [split; [discriminate|reflexivity]|]); constructor|split; [cbn; lia|split; reflexivity]]|].
      intros _ k m. destruct m; vm_compute; lia.
    - split; [unfold packet_ok; split; [vm_compute; repeat (constructor; [split; [discriminate|reflexivity]|]); constructor|split; [cbn; lia|split; reflexivity]]|].
      intros _ k m. destruct m; vm_compute; lia. }
  split; [exact stop81|].
  split; [vm_compute; reflexivity|]. split; [vm_compute; reflexivity|]. split; [vm_compute; discriminate|].
  split; [apply timed_receives|]. split; [apply timed_no_disable|]. split; [right; apply within_ok; vm_compute; reflexivity|].
  split; [apply timed_on_time|]. split; [vm_compute; reflexivity|]. split; [vm_compute; reflexivity|vm_compute; reflexivity].
Qed.

Lemma stop_example : exists xs1 x xs2 tx s es s' es',
  let c := TxConfig 17 58 100 false true in
  let bs := frame 0 [0x61] in
  let ops1 := TBytes (frame 3 [0x3F; 0x90]) :: repeat TTransmit 500 in
  let ops2 := repeat TTransmit 500 ++ TBytes (frame 3 [0x90]) :: repeat TTransmit 1000 in
  let dos := timed (shortest c) 0 (map fst (intervals (xs1 ++ x :: xs2))) in
  stops_all bs /\ (forall p, In (TBytes p) ops1 -> ~ resets p) /\ (forall p, In (TBytes p) ops2 -> ~ sets_speed p) /\
  tx_run (TInit c :: ops1 ++ TBytes bs :: ops2) (tx_init_state 4) = Ok ((None, []) :: xs1 ++ x :: xs2, tx) /\ length xs1 = length ops1 /\
  apart (longest c) (longest c) (combine (ops1 ++ TBytes bs :: ops2) (xs1 ++ x :: xs2)) = true /\
  3 * longest c <= lasting (intervals xs2) /\
  filter is_receive dos = map OReceive (map fst (intervals (xs1 ++ x :: xs2))) /\ ~ In ODisable dos /\ on_time dos /\ paced c dos /\
  run careful (OInit :: dos) (st0 (fun a => if a =? 0 then 3 else 0)) = Ok (tt, s, es) /\
  drives es = [EDirection 3 true; ESpeed 3 30; ESpeed 0 (-1)] /\
  seen_in es = map Told [EDirection 3 true; ESpeed 3 30; ESpeed 0 (-1); EFunction 3 0x1E 1] /\
  run careful (OInit :: dos) (st0 (fun a => if a =? 28 then 32 else if a =? 16 then 0xC3 else if a =? 17 then 0xE8 else 0)) = Ok (tt, s', es') /\
  drives es' = [ESpeed 0 (-1)].
Proof.
  cbv zeta.
  set (l := answers_of (tx_run (TInit (TxConfig 17 58 100 false true) :: (TBytes (frame 3 [0x3F; 0x90]) :: repeat TTransmit 500) ++
    TBytes (frame 0 [0x61]) :: repeat TTransmit 500 ++ TBytes (frame 3 [0x90]) :: repeat TTransmit 1000) (tx_init_state 4))).
  exists (firstn 501 l), (None, []), (skipn 502 l). do 5 eexists.
  split; [exact stop61|]. split.
  { intros p [H|H]; [injection H as <-|exfalso; exact (in_ticks _ _ H)]. intros [_ Hr]. vm_compute in Hr. discriminate Hr. }
  split.
  { intros p H. apply in_app_or in H. destruct H as [H|[H|H]]; try (exfalso; exact (in_ticks _ _ H)). injection H as <-.
    intros [_ Hr]. vm_compute in Hr. destruct Hr as [[Hr|[Hr|[]]]|[_ Hr]]; discriminate Hr. }
  split; [vm_compute; reflexivity|]. split; [vm_compute; reflexivity|]. split; [vm_compute; reflexivity|]. split; [vm_compute; discriminate|].
  split; [apply timed_receives|]. split; [apply timed_no_disable|]. split; [apply timed_on_time|].
  split; [right; apply within_ok; vm_compute; reflexivity|]. split; [vm_compute; reflexivity|]. split; [vm_compute; reflexivity|].
  split; [vm_compute; reflexivity|]. split; [vm_compute; reflexivity|vm_compute; reflexivity].
Qed.
