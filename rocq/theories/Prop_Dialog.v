(** Reading and writing CVs over channel 2: what is answered, and when *)
From Verif Require Import Prelude Address SpecCodec Datagram RxState Rx SpecRx SpecExec SpecConf SpecCv SpecLogon SpecBidi Toy SpecStation SpecLayout
  LayoutWitness BidiWitness SpecDialog DialogProofs4 DialogWitness.

(** * C91 *)

(** Any decoder, any calls: in the cutout behind a CV packet for its own number it sends
    what [converse] says *)
Theorem C91_dialogue : forall (I : Type) (E : Env I) (m : I -> Z -> Z) able, keeps_cvs able E m ->
  forall os i s es p, run E (OInit :: os) (st0 i) = Ok (tt, s, es) -> logons os listener0 = [] -> on_time os ->
  Forall (allowed able) (snd (obey_all (e_east_west E) (SpecRx.taken os listener0) (new_view (m i)))) ->
  l_fresh (listen_all os listener0) = true -> last_heard os listener0 None = Some p ->
  let '(v, w) := converse (e_east_west E) os listener0 None (new_view (m i), None) in
  own_cv_packet (v_cvs v) p = true -> exists s' ds,
  biDiChannel2 E s = Ok (tt, s', map ETransmitBiDi ds) /\ transmitted (speaks p v w) ds /\
  forall r, speaks p v w = Value r -> byte r.
Proof. exact @dialogue_spoken. Qed.
Print Assumptions C91_dialogue.

(** CV3 is read twice: acknowledged, then answered. The answer is given once. *)
Example C91_ex :
  let read k := flat_map (fun _ => served read3) (repeat tt k) ++ tones read3 in
  let f k := converse false (read k) listener0 None (new_view known, None) in
  keeps_cvs all_cvs toy (fun c a => u8 (c a)) /\
  on_time (read 2%nat) /\ logons (read 2%nat) listener0 = [] /\
  Forall (allowed all_cvs) (snd (obey_all false (SpecRx.taken (read 2%nat) listener0) (new_view known))) /\
  l_fresh (listen_all (read 2%nat) listener0) = true /\ last_heard (read 2%nat) listener0 None = Some read3 /\
  own_cv_packet known read3 = true /\
  map (fun k => speaks read3 (fst (f k)) (snd (f k))) [0; 1; 2]%nat = [Received; Value 77; Value 77] /\
  speaks (frame 3 [0xE4; 3; 0]) (fst (f 2%nat)) (snd (f 2%nat)) = Received /\
  exists s es, run toy (OInit :: read 2%nat) (st0 owned) = Ok (tt, s, es) /\
    option_map (map (fun d => make_data (decode_datagram d))) (speaks2 s) = Some [Ok 77].
Proof.
  cbv zeta. split; [exact toy_keeps|]. split; [apply on_time_spec; vm_compute; reflexivity|]. split; [vm_compute; reflexivity|].
  split; [accesses_allowed|].
  do 5 (split; [vm_compute; reflexivity|]). do 2 eexists. split; [vm_compute; reflexivity|]. vm_compute. reflexivity.
Qed.

(** * C92 *)

(** If CVs are only written by CV packets, every value sent in the cutout behind a CV
    packet for the own number is the current content of the CV, or the bit of it, that
    this packet asks for *)
Theorem C92_true : forall (I : Type) (E : Env I) (m : I -> Z -> Z) able, keeps_cvs able E m ->
  forall os i s es p, run E (OInit :: os) (st0 i) = Ok (tt, s, es) -> logons os listener0 = [] -> on_time os ->
  Forall (allowed able) (snd (obey_all (e_east_west E) (SpecRx.taken os listener0) (new_view (m i)))) ->
  only_by_cv_packets (e_east_west E) (SpecRx.taken os listener0) (new_view (m i)) ->
  l_fresh (listen_all os listener0) = true -> last_heard os listener0 None = Some p -> own_cv_packet (m (app s)) p = true ->
  exists s' ds, biDiChannel2 E s = Ok (tt, s', map ETransmitBiDi ds) /\
  (ds = [] \/ ds = [[0x0F]] \/ exists x d, In x (asks p) /\ ds = [d] /\ make_data (decode_datagram d) = Ok (content x (m (app s)))).
Proof. exact @answers_true. Qed.
Print Assumptions C92_true.

(** Otherwise not. CV3 is read, CV19 is set to 5 by a consist instruction, CV3 is read
    again: the answer is 5. *)
Theorem C92_refuted : exists (E : Env (Z -> Z)) (m : (Z -> Z) -> Z -> Z) os i s es p s' d,
  keeps_cvs all_cvs E m /\ run E (OInit :: os) (st0 i) = Ok (tt, s, es) /\ logons os listener0 = [] /\ on_time os /\
  Forall (allowed all_cvs) (snd (obey_all (e_east_west E) (SpecRx.taken os listener0) (new_view (m i)))) /\
  l_fresh (listen_all os listener0) = true /\ last_heard os listener0 None = Some p /\ own_cv_packet (m (app s)) p = true /\
  asks p = [Check 2 0] /\ m (app s) 2 = 77 /\
  biDiChannel2 E s = Ok (tt, s', [ETransmitBiDi d]) /\ make_data (decode_datagram d) = Ok 5.
Proof.
  destruct wrong_answer as (s & es & H1 & H2 & H3 & Ha & H4 & H5 & H6 & H7 & H8 & s' & d & H9 & H10).
  exists toy, (fun c a => u8 (c a)). eexists. exists owned. exists s, es, read3, s', d. exact
    (conj toy_keeps (conj H1 (conj H2 (conj H3 (conj Ha (conj H4 (conj H5 (conj H6 (conj H7 (conj H8 (conj H9 H10))))))))))).
Qed.
Print Assumptions C92_refuted.

(** Hypotheses: CV3 is written, then bit 2 of it is read *)
Example C92_ex : exists s es,
  let w := frame 3 [0xEC; 2; 5] in let r := frame 3 [0xE8; 2; 0xEA] in
  let os := served w ++ served w ++ served r ++ tones r in
  run toy (OInit :: os) (st0 owned) = Ok (tt, s, es) /\ logons os listener0 = [] /\ on_time os /\
  Forall (allowed all_cvs) (snd (obey_all false (SpecRx.taken os listener0) (new_view known))) /\
  only_by_cv_packets false (SpecRx.taken os listener0) (new_view known) /\
  l_fresh (listen_all os listener0) = true /\ last_heard os listener0 None = Some r /\ own_cv_packet (fun a => u8 (app s a)) r = true /\
  asks r = [CheckBit 2 true 2] /\ u8 (app s 2) = 5 /\
  option_map (map (fun d => make_data (decode_datagram d))) (speaks2 s) = Some [Ok 1].
Proof.
  do 2 eexists. cbv zeta. split; [vm_compute; reflexivity|]. split; [vm_compute; reflexivity|].
  split; [apply on_time_spec; vm_compute; reflexivity|].
  split; [accesses_allowed|].
  split.
  { match goal with |- only_by_cv_packets _ ?x _ => let y := eval vm_compute in x in change x with y end. cbn [only_by_cv_packets].
    repeat split; vm_compute; congruence. }
  do 5 (split; [vm_compute; reflexivity|]). vm_compute. reflexivity.
Qed.

(** * C93 *)

(** A CV packet that reads is executed and heard again: the cutout behind it carries the
    content of the CV, whatever was heard and executed before *)
Theorem C93_read : forall (I : Type) (E : Env I) (m : I -> Z -> Z) able, keeps_cvs able E m ->
  forall os t i s es hs p x, run E (OInit :: os ++ [OReceive t]) (st0 i) = Ok (tt, s, es) ->
  logons (os ++ [OReceive t]) listener0 = [] -> on_time os ->
  Forall (allowed able) (snd (obey_all (e_east_west E) hs (new_view (m i)))) ->
  heard os listener0 = hs ++ [p] -> l_queue (listen_all os listener0) = [] -> completed (OReceive t) (listen_all os listener0) = Some p ->
  let v := fst (obey_all (e_east_west E) hs (new_view (m i))) in
  v_service v = false -> own_cv_packet (v_cvs v) p = true -> asks p = [x] -> is_writing x = false ->
  cvs_locked (switches (v_cvs v)) = false -> aval (address_of p) = 0 \/ aval (address_of p) <> aval (consist_address (v_cvs v)) ->
  data_channel (v_cvs v) = true ->
  exists s' d, biDiChannel2 E s = Ok (tt, s', [ETransmitBiDi d]) /\
    make_data (decode_datagram d) = Ok (content x (v_cvs v)) /\ forall a, m (app s) a = v_cvs v a.
Proof. exact @read_answered. Qed.
Print Assumptions C93_read.

(** One that writes is executed twice and heard again: written and answered with the new
    content *)
Theorem C93_write : forall (I : Type) (E : Env I) (m : I -> Z -> Z) able, keeps_cvs able E m ->
  forall os t i s es hs p x, run E (OInit :: os ++ [OReceive t]) (st0 i) = Ok (tt, s, es) ->
  logons (os ++ [OReceive t]) listener0 = [] -> on_time os ->
  Forall (allowed able) (snd (obey_all (e_east_west E) hs (new_view (m i)))) ->
  heard os listener0 = hs ++ [p; p] -> l_queue (listen_all os listener0) = [] -> completed (OReceive t) (listen_all os listener0) = Some p ->
  let v := fst (obey_all (e_east_west E) hs (new_view (m i))) in
  v_service v = false -> own_cv_packet (v_cvs v) p = true -> asks p = [x] -> is_writing x = true -> able x -> v_last v <> p ->
  permitted (cvs_locked (switches (v_cvs v))) x = true ->
  aval (address_of p) = 0 \/ aval (address_of p) <> aval (consist_address (v_cvs v)) ->
  data_channel (v_cvs v) = true -> let c := after x (v_cvs v) in data_channel c = true -> own_cv_packet c p = true ->
  exists s' d, biDiChannel2 E s = Ok (tt, s', [ETransmitBiDi d]) /\
    make_data (decode_datagram d) = Ok (content x c) /\ forall a, m (app s) a = c a.
Proof. exact @write_answered. Qed.
Print Assumptions C93_write.

(** Behind a consist instruction, which C92 excludes, CV3 is read *)
Example C93_ex_read : exists s es,
  let hs := [read3; frame 3 [0x12; 5]] in
  let os := flat_map served (hs ++ [read3]) ++ removelast (tones read3) in
  let v := fst (obey_all false hs (new_view known)) in
  run toy (OInit :: os ++ [OReceive 58]) (st0 owned) = Ok (tt, s, es) /\ logons (os ++ [OReceive 58]) listener0 = [] /\ on_time os /\
  Forall (allowed all_cvs) (snd (obey_all false hs (new_view known))) /\
  heard os listener0 = hs ++ [read3] /\ l_queue (listen_all os listener0) = [] /\ completed (OReceive 58) (listen_all os listener0) = Some read3 /\
  v_service v = false /\ own_cv_packet (v_cvs v) read3 = true /\ asks read3 = [Check 2 0] /\
  cvs_locked (switches (v_cvs v)) = false /\ aval (address_of read3) = 3 /\ aval (consist_address (v_cvs v)) = 5 /\ data_channel (v_cvs v) = true /\
  option_map (map (fun d => make_data (decode_datagram d))) (speaks2 s) = Some [Ok 77].
Proof.
  do 2 eexists. cbv zeta. split; [vm_compute; reflexivity|]. split; [vm_compute; reflexivity|].
  split; [apply on_time_spec; vm_compute; reflexivity|].
  split; [accesses_allowed|].
  do 10 (split; [vm_compute; reflexivity|]). vm_compute. reflexivity.
Qed.

(** CV3 is read, then written *)
Example C93_ex_write : exists s es,
  let hs := [read3] in let w := frame 3 [0xEC; 2; 5] in
  let os := flat_map served (hs ++ [w; w]) ++ removelast (tones w) in
  let v := fst (obey_all false hs (new_view known)) in let c := after (Store 2 5) (v_cvs v) in
  run toy (OInit :: os ++ [OReceive 58]) (st0 owned) = Ok (tt, s, es) /\ logons (os ++ [OReceive 58]) listener0 = [] /\ on_time os /\
  Forall (allowed all_cvs) (snd (obey_all false hs (new_view known))) /\
  heard os listener0 = hs ++ [w; w] /\ l_queue (listen_all os listener0) = [] /\ completed (OReceive 58) (listen_all os listener0) = Some w /\
  v_service v = false /\ own_cv_packet (v_cvs v) w = true /\ asks w = [Store 2 5] /\ v_last v = read3 /\
  permitted (cvs_locked (switches (v_cvs v))) (Store 2 5) = true /\ aval (address_of w) = 3 /\ aval (consist_address (v_cvs v)) = 0 /\
  data_channel (v_cvs v) = true /\ data_channel c = true /\ own_cv_packet c w = true /\ v_cvs v 2 = 77 /\ u8 (app s 2) = 5 /\
  option_map (map (fun d => make_data (decode_datagram d))) (speaks2 s) = Some [Ok 5].
Proof.
  do 2 eexists. cbv zeta. split; [vm_compute; reflexivity|]. split; [vm_compute; reflexivity|].
  split; [apply on_time_spec; vm_compute; reflexivity|].
  split; [accesses_allowed|].
  do 15 (split; [vm_compute; reflexivity|]). vm_compute. reflexivity.
Qed.
