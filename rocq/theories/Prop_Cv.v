(** Properties C34 to C42 and C47: access to CVs by packets *)
From Verif Require Import Prelude Address SpecCodec Packets RxState Rx SpecRx SpecExec SpecConf SpecCv
  CvProofs2 CvProofs3 CvProofs4 CvProofs6 CvProofs7 CvProofs8 Toy CvWitness.

(** * C34 *)

(** A write packet executed [n] times, other traffic in between: one write for two or more *)
Theorem C34_written_once : forall (I : Type) (E : Env I) p a v s n l s',
  in_a_row E p a v s n l s' -> reached E s -> last_cv_packet s <> p ->
  l = if (2 <=? n)%nat then [Store a v] else [].
Proof. exact @written_once. Qed.
Print Assumptions C34_written_once.

(** Write of 9 to CV5, three times, a speed command in between *)
Example C34_ex : let p := [3; 0xEC; 4; 9; 0xE2] in
  let s := fed factory [p; [3; 0x3F; 0x90; 0xAC]; p; p] in
  in_a_row toy p 4 9 s 3 [Store 4 9] (later 1 (later 1 (later 1 (later 1 s)))) /\ reached toy s /\ last_cv_packet s <> p.
Proof. exact row_example. Qed.

(** * C35 *)

(** One read of the CV, one answer with what was read *)
Theorem C35_answered : forall (I : Type) (E : Env I) m, cv_memory E m ->
  forall s p q b0 b1 b2 x, ready s p q -> long_form s p b0 b1 b2 -> locked s = false ->
  request b0 b1 b2 = [x] -> is_writing x = false ->
  exists s' e1 e r, execute E s = Ok (true, s', e1 ++ [e]) /\ storing s e1 /\
    bystanders s' = bystanders s /\ configuration s' = configuration s /\ r_deque (rxs s') = q /\
    match x with
    | Check a v => e = EReadCvByte a v r /\ r = m (app s') a
    | CheckBit a v k => e = EReadCvBit a v k (bit_of (m (app s') a) k) /\ r = Z.b2z (bit_of (m (app s') a) k)
    | _ => False
    end /\
    if railcom_on s then answers s' r else answer_queue s' = [] \/ answer_queue s' = answer_queue s.
Proof. exact @verify_answered. Qed.
Print Assumptions C35_answered.

(** An application that answers later *)
Theorem C35_callback : forall (I : Type) (E : Env I) s i b v, in_service s = false -> railcom_on s = true ->
  nth_error (pending s) i = Some (PendByte b) -> byte v ->
  exists s', step E (OCallback i v) s = Ok (false, s', []) /\ answers s' v /\
    bystanders s' = bystanders s /\ configuration s' = configuration s /\ r_deque (rxs s') = r_deque (rxs s).
Proof. exact @callback_answered. Qed.
Print Assumptions C35_callback.

(** CV29 = 10, compared with 7: the answer is 10 all the same *)
Example C35_ex : let p := [3; 0xE4; 28; 7; 0xFC] in let s := fed factory [p] in
  ready s p [] /\ long_form s p 0xE4 28 7 /\ locked s = false /\ request 0xE4 28 7 = [Check 28 7] /\ railcom_on s = true /\
  shows s = Some (true, [EReadCvByte 28 7 10]) /\
  answer_queue (later 1 s) = [[0xAC; 0x93]].
Proof.
  cbv zeta. split; [split; vm_compute; reflexivity|]. split; [|repeat split; vm_compute; reflexivity].
  apply long3; try (vm_compute; reflexivity); [|lia]. repeat (apply Forall_cons; [unfold byte; lia|]). apply Forall_nil.
Qed.

(** * C36 *)

(** Accesses made by the long form, at any repetition: those it asks for, no others *)
Theorem C36_requested : forall (I : Type) (E : Env I) s p q b0 b1 b2 b s' es,
  ready s p q -> long_form s p b0 b1 b2 -> execute E s = Ok (b, s', es) ->
  b = true /\ exists k e1 e2, es = e1 ++ e2 /\ storing s e1 /\ nth_in_row s p k /\ counted s' p k /\
    accesses e2 = filter (permitted (locked s)) (flat_map (due k) (request b0 b1 b2)).
Proof. exact @long_step. Qed.
Print Assumptions C36_requested.

(** ... and what the packets of the library's generators ask for *)
Theorem C36_generated : forall v cv b bit pos p, 0 <= v <= 10239 -> 0 <= cv < 1024 -> byte b -> 0 <= pos < 8 ->
  forall x,
  (make_cv_access_long_verify_packet (loco v) cv b = Ok p /\ x = Check cv b) \/
  (make_cv_access_long_write_packet (loco v) cv b = Ok p /\ x = Store cv b) \/
  (make_cv_access_long_verify_bit_packet (loco v) cv bit pos = Ok p /\ x = CheckBit cv bit pos) \/
  (make_cv_access_long_write_bit_packet (loco v) cv bit pos = Ok p /\ x = StoreBit cv bit pos) ->
  exists b0 b1 b2 c, body_of p = [b0; b1; b2; c] /\ for_locos p /\ aval (address_of p) = v /\ 0xE0 <= b0 < 0xF0 /\
    request b0 b1 b2 = [x].
Proof. exact built_request. Qed.
Print Assumptions C36_generated.

(** Bit 6 of CV300 set in decoder 3 *)
Example C36_ex : let p := [3; 0xE9; 43; 0xFE; 0x3F] in let s := fed factory [p; p; p] in
  make_cv_access_long_write_bit_packet (loco 3) 299 true 6 = Ok p /\
  long_form s p 0xE9 43 0xFE /\ request 0xE9 43 0xFE = [StoreBit 299 true 6] /\
  map accesses [snd (drained 1 s); snd (drained 2 s); snd (drained 3 s)] =
  [[]; [StoreBit 299 true 6]; [StoreBit 299 true 6]] /\ app (later 3 s) 299 = 64.
Proof.
  cbv zeta. split; [vm_compute; reflexivity|]. split; [|repeat split; vm_compute; reflexivity].
  apply long3; try (vm_compute; reflexivity); [|lia]. repeat (apply Forall_cons; [unfold byte; lia|]). apply Forall_nil.
Qed.

(** * C37 *)

(** A decoder that was initialised at some time, whatever happened since *)
Theorem C37_locked : forall (I : Type) (E : Env I) m, cv_memory E m -> forall os1 os2 s0 s es0 o b s' es,
  run E (os1 ++ OInit :: os2) s0 = Ok (tt, s, es0) ->
  let c := m (app s) in
  cv c 15 <> 0 -> cv c 16 <> 0 -> cv c 15 <> cv c 16 -> step E o s = Ok (b, s', es) ->
  exists e1 e2, es = e1 ++ e2 /\ (if match o with OExecute => true | _ => false end then storing s e1 else e1 = []) /\
    Forall (fun x => is_writing x = true /\ target x = 15 - 1) (accesses e2).
Proof. exact @locked_cvs. Qed.
Print Assumptions C37_locked.

(** CV15 = 1, CV16 = 2: neither read nor written, until CV15 is set to 2 *)
Example C37_ex : let cvs := put (put factory 14 1) 15 2 in
  let r := [3; 0xE4; 0; 3; 0xE4] in let w := [3; 0xEC; 0; 9; 0xE6] in let u := [3; 0xEC; 14; 2; 0xE3] in
  map (fun n => accesses (snd (drained n (fed cvs [r; w; w; u; u; r])))) [3%nat; 5%nat; 6%nat] =
  [[]; [Store 14 2]; [Store 14 2; Check 0 3]].
Proof. vm_compute. reflexivity. Qed.

(** * C38 *)

(** Exactly these packets change the mode, each with one call of the hook *)
Theorem C38_mode : forall (I : Type) (E : Env I) s o b s' es, reached E s -> step E o s = Ok (b, s', es) ->
  (o = OExecute /\ (exists p q, ready s p q /\ enters s p) /\ in_service s' = true /\ mode_calls es = [true]) \/
  (o = OExecute /\ (exists p q, ready s p q /\ leaves s p) /\ in_service s' = false /\ mode_calls es = [false]) \/
  (~ (o = OExecute /\ exists p q, ready s p q /\ (enters s p \/ leaves s p)) /\ in_service s' = in_service s /\ mode_calls es = []).
Proof. exact @mode_step. Qed.
Print Assumptions C38_mode.

(** The packet that starts service mode has address 0, but for one case *)
Theorem C38_entered_by : forall (I : Type) (E : Env I) s o b s' es, reached E s -> step E o s = Ok (b, s', es) ->
  in_service s = false -> in_service s' = true ->
  o = OExecute /\ mode_calls es = [true] /\ exists p q, ready s p q /\ for_locos p /\ hd 1 (body_of p) = 0 /\
    (aval (address_of p) = 0 \/ aval (primary (r_addrs (rxs s))) = 0 /\ loco_number (logon (r_addrs (rxs s))) (aval (address_of p))).
Proof. exact @entered_by. Qed.
Print Assumptions C38_entered_by.

(** That case: CV1 = 0, logon address 1000 assigned, then instruction 0 to 1000 *)
Theorem C38_address_refuted : exists (cvs : Z -> Z) s es, let p := [0xC3; 0xE8; 0; 0x2B] in
  run toy (heard [closed (assign_1000 ++ [Checksum.crc8 assign_1000]); p] ++ repeat OExecute 2) (st0 cvs) = Ok (tt, s, es) /\
  address_of p = Addr 1000 ATLong false /\ in_service s = true /\ mode_calls es = [true].
Proof. exact logon_service. Qed.
Print Assumptions C38_address_refuted.

(** In by a reset, kept by a reset and a direct mode packet, out by a speed command *)
Example C38_ex : let s := fed factory [[0; 0; 0]; [0; 0; 0]; [0x74; 0; 3; 0x77]; [3; 0x3F; 0x90; 0xAC]] in
  reached toy s /\ enters s [0; 0; 0] /\ leaves (later 3 s) [3; 0x3F; 0x90; 0xAC] /\
  map (fun n => mode_calls (snd (drained n s))) [1%nat; 3%nat; 4%nat] = [[true]; [true]; [true; false]].
Proof.
  cbv zeta. split; [|split; [|split]].
  - apply fed_reached. vm_compute. reflexivity.
  - split; [vm_compute; reflexivity|]. split; [cbn; auto|]. split; [apply to_all; reflexivity|reflexivity].
  - split; [vm_compute; reflexivity|]. split; [discriminate|]. cbn. lia.
  - vm_compute. reflexivity.
Qed.

(** * C39 *)

(** Direct mode *)
Theorem C39_direct : forall (I : Type) (E : Env I), e_async_readable E = false /\ e_async_writable E = false ->
  forall s b0 b1 b2 c q b s' es, reached E s -> in_service s = true -> ready s [b0; b1; b2; c] q ->
  0x70 <= b0 < 0x80 -> execute E s = Ok (b, s', es) ->
  exists k e1 e2, es = e1 ++ e2 /\ storing s e1 /\ nth_in_row s [b0; b1; b2; c] k /\ counted s' [b0; b1; b2; c] k /\
    accesses e2 = (if (k =? 2)%nat then filter (permitted (locked s)) (request b0 b1 b2) else []) /\
    acks_of e2 = confirmations e2 /\ (acks_of e2 <= 1)%nat.
Proof. exact @direct_step. Qed.
Print Assumptions C39_direct.

(** Register and paged mode *)
Theorem C39_register : forall (I : Type) (E : Env I), e_async_readable E = false /\ e_async_writable E = false ->
  forall s b0 b1 c q b s' es, reached E s -> in_service s = true -> ready s [b0; b1; c] q ->
  0x70 <= b0 < 0x80 -> execute E s = Ok (b, s', es) ->
  exists e1 e2, es = e1 ++ e2 /\ storing s e1 /\
    accesses e2 = filter (permitted (locked s))
      (if (page s =? 0) && (b0 mod 8 <? 4)
       then [(if bit_of b0 3 then Store else Check) (2 ^ 32 - 4 + b0 mod 8) b1]
       else register_request (page s) b0 b1) /\
    (if b0 mod 8 =? 5 then e2 = (if negb (bit_of b0 3) && (page s =? b1) then [EServiceAck] else [])
     else acks_of e2 = confirmations e2) /\
    (acks_of e2 <= 1)%nat /\
    page s' = (if b0 mod 16 =? 13 then b1 else page s).
Proof. exact @register_step. Qed.
Print Assumptions C39_register.

(** Any other packet *)
Theorem C39_other : forall (I : Type) (E : Env I) s p q b s' es, reached E s -> in_service s = true -> ready s p q ->
  ~ (0x70 <= hd 0 p < 0x80 /\ (length p = 3%nat \/ length p = 4%nat)) -> execute E s = Ok (b, s', es) ->
  exists e1 e2, es = e1 ++ e2 /\ storing s e1 /\ accesses e2 = [] /\ acks_of e2 = 0%nat /\ page s' = page s.
Proof. exact @other_step. Qed.
Print Assumptions C39_other.

(** Outside service mode, and by calls that neither execute packets nor bring answers *)
Theorem C39_silence : forall (I : Type) (E : Env I) s o b s' es, reached E s -> step E o s = Ok (b, s', es) ->
  in_service s = false \/ match o with OExecute | OCallback _ _ => False | _ => True end -> acks_of es = 0%nat.
Proof. exact @no_ack. Qed.
Print Assumptions C39_silence.

(** Answers of an application that answers later *)
Theorem C39_callback : forall (I : Type) (E : Env I) s i c v, in_service s = true -> nth_error (pending s) i = Some c ->
  exists s', step E (OCallback i v) s = Ok (false, s',
    if match c with PendByte b => b =? u8 v | PendBit b => Bool.eqb b (negb (v =? 0)) end then [EServiceAck] else []).
Proof. exact @callback_ack. Qed.
Print Assumptions C39_callback.

(** CV1 is 3, not 4; page 8 holds CV29 as its first *)
Example C39_ex : let t := [0x74; 0; 3; 0x77] in let f := [0x74; 0; 4; 0x70] in
  let s := fed factory [[0; 0; 0]; t; t; f; f; [0x7D; 8; 0x75]; [0x75; 8; 0x7D]; [0x70; 10; 0x7A]] in
  reached toy (later 2 s) /\ in_service (later 2 s) = true /\
  map (fun n => acks_of (snd (drained n s))) [2%nat; 3%nat; 5%nat; 6%nat; 7%nat; 8%nat] = [0; 1; 1; 1; 2; 3]%nat /\
  accesses (snd (drained 8 s)) = [Check 0 3; Check 0 4; Check 28 10].
Proof.
  cbv zeta. split; [|repeat split; vm_compute; reflexivity].
  apply later_reached, fed_reached. vm_compute. reflexivity.
Qed.

(** * C40 *)

(** A verification other than the last CV packet is answered at the second packet, by an
    acknowledge if the value is right *)
Theorem C40_fresh : forall (I : Type) (E : Env I) m, cv_memory E m ->
  forall s b0 b1 b2 c q b s1 es1 q1 x, reached E s -> ready s [b0; b1; b2; c] q -> in_service s = true ->
  0x70 <= b0 < 0x80 -> request b0 b1 b2 = [x] -> is_writing x = false ->
  last_cv_packet s <> [b0; b1; b2; c] -> execute E s = Ok (b, s1, es1) ->
  ready s1 [b0; b1; b2; c] q1 -> locked s1 = false ->
  exists s' e1 e2, execute E s1 = Ok (true, s', e1 ++ e2) /\ storing s1 e1 /\
    match x with
    | Check a v => e2 = EReadCvByte a v (m (app s') a) :: if v =? m (app s') a then [EServiceAck] else []
    | CheckBit a v k =>
        e2 = EReadCvBit a v k (bit_of (m (app s') a) k) :: if Bool.eqb v (bit_of (m (app s') a) k) then [EServiceAck] else []
    | _ => False
    end.
Proof. exact @fresh_verify. Qed.
Print Assumptions C40_fresh.

(** Two sessions, each verifies CV1 = 3 with two packets: one acknowledge *)
Theorem C40_again_refuted : exists (cvs : Z -> Z) s es, let p := [0x74; 0; 3; 0x77] in
  run toy (heard [[0; 0; 0]; p; p; [0xFF; 0; 0xFF]; [0; 0; 0]; p; p] ++ repeat OExecute 7) (st0 cvs) = Ok (tt, s, es) /\
  request 0x74 0 3 = [Check 0 3] /\ cvs 0 = 3 /\ app s 0 = 3 /\ mode_calls es = [true; false; true] /\ in_service s = true /\
  acks_of es = 1%nat.
Proof. exact second_session. Qed.
Print Assumptions C40_again_refuted.

(** A bit of CV29 *)
Example C40_ex : let p := [0x78; 28; 0xE9; 0x8D] in let s := later 1 (fed factory [[0; 0; 0]; p; p]) in
  reached toy s /\ ready s p [p] /\ in_service s = true /\ request 0x78 28 0xE9 = [CheckBit 28 true 1] /\ last_cv_packet s <> p /\
  ready (later 1 s) p [] /\ locked (later 1 s) = false /\
  shows (later 1 s) = Some (true, [EReadCvBit 28 true 1 true; EServiceAck]).
Proof.
  cbv zeta. split; [apply later_reached, fed_reached; vm_compute; reflexivity|].
  split; [split; vm_compute; reflexivity|]. split; [vm_compute; reflexivity|]. split; [vm_compute; reflexivity|].
  split; [vm_compute; discriminate|]. split; [split; vm_compute; reflexivity|]. split; vm_compute; reflexivity.
Qed.

(** * C41 *)

(** Unless the page register is 0 *)
Theorem C41_targets : forall (I : Type) (E : Env I) s b s' es, reached E s ->
  (in_service s = true -> page s <> 0) -> execute E s = Ok (b, s', es) ->
  exists e1 e2, es = e1 ++ e2 /\ storing s e1 /\ Forall (fun x => 0 <= target x < 1024) (accesses e2).
Proof. exact @targets. Qed.
Print Assumptions C41_targets.

(** Page register 0: register 3 is CV 2^32 *)
Theorem C41_page0_refuted : exists (cvs : Z -> Z) s es,
  run toy (heard [[0; 0; 0]; [0x7D; 0; 0x7D]; [0x7B; 7; 0x7C]] ++ repeat OExecute 3) (st0 cvs) = Ok (tt, s, es) /\
  accesses es = [Store 4294967295 7].
Proof. exact page_zero. Qed.
Print Assumptions C41_page0_refuted.

(** The last register of the last page, and CV1024 *)
Example C41_ex : let s := fed factory [[0; 0; 0]; [0x7D; 255; 0x82]; [0x73; 7; 0x74]; [0x77; 255; 7; 0x8F]; [0x77; 255; 7; 0x8F]] in
  page (later 2 s) = 255 /\ accesses (snd (drained 5 s)) = [Check 1019 7; Check 1023 7].
Proof. vm_compute. auto. Qed.

(** * C42 *)

(** Accesses made by the short form *)
Theorem C42_short_form : forall (I : Type) (E : Env I) m, cv_memory E m ->
  forall os1 os2 s0 s es0 p q b0 b1 b2 b s' es,
  run E (os1 ++ OInit :: os2) s0 = Ok (tt, s, es0) ->
  ready s p q -> short_form s p b0 b1 b2 -> execute E s = Ok (b, s', es) ->
  b = true /\ exists k e1 e2, es = e1 ++ e2 /\ storing s e1 /\ nth_in_row s p k /\ counted s' p k /\
    accesses e2 = if locked s then [] else short_request k b0 b1 b2.
Proof. exact @short_after_init. Qed.
Print Assumptions C42_short_form.

(** Long address 1000 for decoder 3; CV24 at once *)
Example C42_ex : let p := [3; 0xF4; 3; 0xE8; 0x1C] in let s := fed factory [p; p] in
  short_form s p 0xF4 3 0xE8 /\ ready s p [p] /\
  map (fun n => accesses (snd (drained n s))) [1%nat; 2%nat] = [[]; [Store 16 195; Store 17 232; StoreBit 28 true 5]] /\
  primary (r_addrs (rxs (later 2 s))) = Addr 1000 ATLong false /\
  accesses (snd (drained 1 (fed factory [[3; 0xF3; 20; 0xE4]]))) = [Store 23 20].
Proof.
  cbv zeta. split; [|repeat split; vm_compute; reflexivity].
  apply short3; try (vm_compute; reflexivity); [|lia]. repeat (apply Forall_cons; [unfold byte; lia|]). apply Forall_nil.
Qed.

(** * C47 *)

Theorem C47_not_by_consist : forall (I : Type) (E : Env I) s p q n b0 t,
  ready s p q -> in_service s = false -> Forall byte p -> (3 <= length p)%nat ->
  for_locos p -> acts_as (r_addrs (rxs s)) p n -> by_consist s n -> body_of p = b0 :: t -> 0xE0 <= b0 ->
  reacts E s q true [].
Proof. exact @consist_no_access. Qed.
Print Assumptions C47_not_by_consist.

(** Consist 100: a read of CV1 by 100 is ignored, by 3 it is not *)
Example C47_ex : let cvs := put factory 18 100 in
  let p := [100; 0xE4; 0; 3; 0x83] in let s := fed cvs [p] in
  ready s p [] /\ acts_as (r_addrs (rxs s)) p 100 /\ by_consist s 100 /\ body_of p = [0xE4; 0; 3; 0x83] /\
  shows s = Some (true, []) /\ shows (fed cvs [[3; 0xE4; 0; 3; 0xE4]]) = Some (true, [EReadCvByte 0 3 3]).
Proof.
  cbv zeta. split; [split; vm_compute; reflexivity|]. split.
  { apply to_own; try (vm_compute; reflexivity); [discriminate|]. right. vm_compute. auto. }
  split; [split; [discriminate|vm_compute; reflexivity]|]. repeat split; vm_compute; reflexivity.
Qed.
