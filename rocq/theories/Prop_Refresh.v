(** Property C114: orders to drive may be repeated *)
From Verif Require Import Prelude Address SpecCodec SpecTx Tx CodecProofs2 RxState Rx SpecRx SpecExec SpecConf SpecCv SpecBidi SpecSafe Toy
  SpecLayout SpecLayout2 LayoutWitness SpecStation StationProofs2 StationProofs4 StationWitness SpecPace PaceWitness SpecLatency SpecReact
  SpecRefresh RefreshProofs.

(** * C114 *)

(** Packets that drive, or are for somebody else: the last order about a knob stands, and
    nothing else about the decoder changes *)
Theorem C114_last : forall ew v, v_service v = false -> forall ps p qs, Forall (drives (v_cvs v)) (ps ++ p :: qs) ->
  (forall q, In q qs -> agree ew (v_cvs v) p q) ->
  forall n k x, orders ew (v_cvs v) p n k = Some x -> panel (snd (obey_all ew (ps ++ p :: qs) v)) n k = Some x.
Proof. exact last_stands. Qed.
Print Assumptions C114_last.

(** A decoder that has executed orders that agree shows all of them and nothing else *)
Theorem C114_decoder : forall (I : Type) (E : Env I) (m : I -> Z -> Z) able, keeps_cvs able E m ->
  forall dos i s es, run E (OInit :: dos) (st0 i) = Ok (tt, s, es) -> logons dos listener0 = [] ->
  let ps := SpecRx.taken dos listener0 in
  Forall (drives (m i)) ps ->
  (forall a, m (app s) a = m i a) /\ in_service s = false /\
  (forall n k x, panel (seen_in es) n k = Some x -> exists p, In p ps /\ orders (e_east_west E) (m i) p n k = Some x) /\
  ((forall p q, In p ps -> In q ps -> agree (e_east_west E) (m i) p q) ->
   forall p n k x, In p ps -> orders (e_east_west E) (m i) p n k = Some x -> panel (seen_in es) n k = Some x).
Proof. exact @refresh_decoder. Qed.
Print Assumptions C114_decoder.

(** It does not matter how often and in which order they came *)
Theorem C114_same : forall (I : Type) (E : Env I) (m : I -> Z -> Z) able, keeps_cvs able E m ->
  forall dos i s es dos' i' s' es', run E (OInit :: dos) (st0 i) = Ok (tt, s, es) -> logons dos listener0 = [] ->
  run E (OInit :: dos') (st0 i') = Ok (tt, s', es') -> logons dos' listener0 = [] -> m i' = m i ->
  let ps := SpecRx.taken dos listener0 in let ps' := SpecRx.taken dos' listener0 in
  Forall (drives (m i)) ps -> (forall p q, In p ps -> In q ps -> agree (e_east_west E) (m i) p q) ->
  (forall p, In p ps <-> In p ps') ->
  forall n k, panel (seen_in es) n k = panel (seen_in es') n k.
Proof. exact @refresh_same. Qed.
Print Assumptions C114_same.

(** An order handed to a station, none of the later ones contradicting it: after the time of
    C113 every decoder shows it, whatever was ordered before and is repeated afterwards *)
Theorem C114_station : forall (I : Type) (E : Env I) (m : I -> Z -> Z) able (time : I -> Z),
  keeps_cvs able E m -> short_cv1 E -> clock E time ->
  forall c ops1 bs ops2 xs1 x xs2 tx i, 0 <= time i -> config_ok c -> Forall plain_op (ops1 ++ TBytes bs :: ops2) ->
  (forall p, In (TBytes p) (ops1 ++ TBytes bs :: ops2) -> packet_ok p /\ complete p /\ drives (m i) p) ->
  (forall p, In (TBytes p) ops2 -> agree (e_east_west E) (m i) bs p) ->
  tx_run (TInit c :: ops1 ++ TBytes bs :: ops2) (tx_init_state 4) = Ok ((None, []) :: xs1 ++ x :: xs2, tx) -> length xs1 = length ops1 ->
  exists h1 ws, flat_map call_of h1 = ops1 /\ flat_map result_of h1 = xs1 /\ history_ok c h1 /\ SpecTx.waiting h1 ws /\
  ((length ws < 3)%nat -> (Z.of_nat (length ws) + 3) * longest c <= lasting (intervals xs2) ->
   forall dos, filter is_receive dos = map OReceive (map fst (intervals (xs1 ++ x :: xs2))) -> ~ In ODisable dos ->
     paced c dos -> on_time dos ->
     exists s es, run E (OInit :: dos) (st0 i) = Ok (tt, s, es) /\
     forall n k y, orders (e_east_west E) (m i) bs n k = Some y -> panel (seen_in es) n k = Some y).
Proof. exact @refresh_station. Qed.
Print Assumptions C114_station.

(** Locomotive 3: forwards with step 16 of 126, F0 and F2 on, first stopped; the orders agree,
    stop and step 16 do not. A station that repeats them. *)
Example C114_ex : exists xs1 x xs2 tx s es,
  let c := TxConfig 17 58 100 false true in let i := fun a => if a =? 0 then 3 else if a =? 28 then 2 else 0 in
  let halt := frame 3 [0x3F; 0x80] in let go := frame 3 [0x3F; 0x90] in let lights := frame 3 [0x92] in
  let ops1 := TBytes halt :: repeat TTransmit 100 in
  let ops2 := TBytes lights :: repeat TTransmit 200 ++ TBytes go :: repeat TTransmit 100 ++ TBytes lights :: TBytes go :: repeat TTransmit 1700 in
  let dos := timed (shortest c) 0 (map fst (intervals (xs1 ++ x :: xs2))) in
  Forall (drives (shown i)) [halt; go; lights] /\ agree false (shown i) go lights /\ agree false (shown i) go go /\ ~ agree false (shown i) go halt /\
  tx_run (TInit c :: ops1 ++ TBytes go :: ops2) (tx_init_state 4) = Ok ((None, []) :: xs1 ++ x :: xs2, tx) /\ length xs1 = length ops1 /\
  3 * longest c <= lasting (intervals xs2) /\
  filter is_receive dos = map OReceive (map fst (intervals (xs1 ++ x :: xs2))) /\ ~ In ODisable dos /\ on_time dos /\ paced c dos /\
  run careful (OInit :: dos) (st0 i) = Ok (tt, s, es) /\
  map (fun k => orders false (shown i) go 3 k) [Direction; SpeedStep; Fn 0] = [Some 1; Some 30; None] /\
  map (panel (seen_in es) 3) [Direction; SpeedStep; Fn 0; Fn 1; Fn 2; Fn 5] = [Some 1; Some 30; Some 1; Some 0; Some 1; None].
Proof.
  cbv zeta.
  set (l := match tx_run (TInit (TxConfig 17 58 100 false true) :: (TBytes (frame 3 [0x3F; 0x80]) :: repeat TTransmit 100) ++ TBytes (frame 3 [0x3F; 0x90]) ::
    TBytes (frame 3 [0x92]) :: repeat TTransmit 200 ++ TBytes (frame 3 [0x3F; 0x90]) :: repeat TTransmit 100 ++ TBytes (frame 3 [0x92]) ::
    TBytes (frame 3 [0x3F; 0x90]) :: repeat TTransmit 1700) (tx_init_state 4) with Ok (_ :: l, _) => l | _ => [] end).
  exists (firstn 101 l), (None, []), (skipn 102 l). do 3 eexists.
  set (i := fun a => if a =? 0 then 3 else if a =? 28 then 2 else 0).
  assert (G : forall n k, orders false (shown i) (frame 3 [0x3F; 0x90]) n k = latest [(3, Direction, 1); (3, SpeedStep, 30)] n k) by (intros; reflexivity).
  assert (L : forall n k, orders false (shown i) (frame 3 [0x92]) n k = latest [(3, Fn 0, 1); (3, Fn 1, 0); (3, Fn 2, 1); (3, Fn 3, 0); (3, Fn 4, 0)] n k)
    by (intros; reflexivity).
  split; [repeat constructor; vm_compute; congruence|].
  split; [intros n k a b; rewrite G, L; cbn [latest]; destruct (3 =? n); destruct k; cbn; congruence|].
  split; [intros n k a b; rewrite G; congruence|].
  split; [intro H; specialize (H 3 SpeedStep 30 0 eq_refl eq_refl); discriminate H|].
  split; [vm_compute; reflexivity|]. split; [vm_compute; reflexivity|].
  split; [vm_compute; discriminate|]. split; [apply timed_receives|]. split; [apply timed_no_disable|]. split; [apply timed_on_time|].
  split; [right; apply within_ok; vm_compute; reflexivity|]. split; [vm_compute; reflexivity|]. split; vm_compute; reflexivity.
Qed.
