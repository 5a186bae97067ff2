(** Properties C48 to C53: automatic logon *)
From Verif Require Import Prelude Address Backoff SpecCodec RxState Rx SpecRx SpecExec SpecConf SpecCv SpecLogon
  LogonProofs3 LogonProofs4 LogonProofs5 Toy CvWitness LogonWitness.

(** * C48 *)

(** SELECT or ASSIGN with another unique ID, or with logon switched off, or SELECT after
    the assignment: nothing happens. The same for commands that are none of the three. *)
Theorem C48_ignored : forall (I : Type) (E : Env I) (s : st I) t p m, hears E s t p -> says p m -> undamaged p ->
  match m with
  | Select id => logon_on s = false \/ id <> own_id s \/ is_assigned s = true
  | Assign id _ _ => logon_on s = false \/ id <> own_id s
  | Enable _ _ _ => False
  | Nothing => True
  end ->
  exists s', receive E t s = Ok (tt, s', []) /\ took s p s' /\ unmoved s s'.
Proof. exact @not_mine. Qed.
Print Assumptions C48_ignored.

(** Otherwise SELECT is answered with the locomotive address, unless an answer waits *)
Theorem C48_selected : forall (I : Type) (E : Env I) (s : st I) t p id, hears E s t p -> says p (Select id) -> undamaged p ->
  logon_on s = true -> id = own_id s -> is_assigned s = false ->
  match logon_answers s with
  | [] => exists s', receive E t s = Ok (tt, s', []) /\ took s p s' /\
      is_selected s' = true /\ answers_with s' (select_answer (aval (primary (r_addrs (rxs s))))) /\
      own_addresses s' = own_addresses s /\ is_assigned s' = is_assigned s /\ to_store s' = to_store s /\
      new_station s' = new_station s /\ pause s' = pause s /\ app s' = app s
  | _ => receive E t s = UB AssertFailed
  end.
Proof. exact @selected. Qed.
Print Assumptions C48_selected.

(** The manufacturer number in the packet plays no part: it is 13 here *)
Theorem C48_manufacturer : exists (cvs : Z -> Z) s t p s' es, hears toy s t p /\ says p (Select (own_id s)) /\ undamaged p /\
  nth 2 p 0 = 13 /\ receive toy t s = Ok (tt, s', es) /\ is_selected s = false /\ is_selected s' = true /\
  length (logon_answers s') = 1%nat /\ own_id s = [cvs 249; cvs 250; cvs 251; cvs 252].
Proof. exact other_manufacturer. Qed.
Print Assumptions C48_manufacturer.

(** The selection of 1 2 3 4 heard by 1 2 3 4 and by 1 2 3 9 *)
Example C48_ex : let p := select_1234 145 in
  let s := after (talk [enable_5] ++ almost p) ready_made in
  let x := after (talk [enable_5] ++ almost p) (put ready_made 252 9) in
  says p (Select [1; 2; 3; 4]) /\ undamaged p /\ hears toy s 58 p /\ hears toy x 58 p /\
  logon_on s = true /\ own_id s = [1; 2; 3; 4] /\ is_assigned s = false /\ logon_answers s = [] /\
  logon_on x = true /\ own_id x = [1; 2; 3; 9].
Proof.
  cbv zeta. split; [exact (says_select 0 145 [1; 2; 3; 4] (skipn 7 (select_1234 145)) ltac:(lia) eq_refl)|].
  split; [right; vm_compute; reflexivity|]. split; [apply heard_last; vm_compute; reflexivity|].
  split; [apply heard_last; vm_compute; reflexivity|]. repeat split; vm_compute; reflexivity.
Qed.

(** * C49 *)

(** ENABLE with logon switched off or after the selection: nothing happens *)
Theorem C49_silent : forall (I : Type) (E : Env I) (s : st I) t p g cid sid, hears E s t p -> says p (Enable g cid sid) ->
  undamaged p -> logon_on s = false \/ is_selected s = true ->
  exists s', receive E t s = Ok (tt, s', []) /\ took s p s' /\ unmoved s s'.
Proof. exact @silent. Qed.
Print Assumptions C49_silent.

(** The stored command station at most four sessions later: logged on without an answer,
    the address is what the two stored bytes mean at the start of a packet *)
Theorem C49_skips : forall (I : Type) (E : Env I) (s : st I) t p g cid sid x i1 y i2, hears E s t p ->
  says p (Enable g cid sid) -> undamaged p -> logon_on s = true -> is_selected s = false -> recognized s cid sid ->
  e_readCv E (app s) 65299 = (x, i1) -> e_readCv E i1 65300 = (y, i2) ->
  exists s', receive E t s = Ok (tt, s', [EReadCv 65299 (u8 x); EReadCv 65300 (u8 y)]) /\ took s p s' /\
    own_addresses s' = (primary (r_addrs (rxs s)), consist (r_addrs (rxs s)), address_of [u8 x; u8 y]) /\
    is_selected s' = true /\ is_assigned s' = true /\ to_store s' = true /\ new_station s' = (cid, sid) /\
    pause s' = pause s /\ logon_answers s' = logon_answers s /\ app s' = i2.
Proof. exact @enabled_known. Qed.
Print Assumptions C49_skips.

(** Otherwise group 2 (accessory decoders) is not answered. The others are if no packet
    is left to be passed over; group 3 starts that count anew. The next count is drawn
    from an interval that doubles up to 64. What the stored command station had assigned
    is given up. *)
Theorem C49_answers : forall (I : Type) (E : Env I) (s : st I) t p g cid sid, hears E s t p -> says p (Enable g cid sid) ->
  undamaged p -> logon_on s = true -> is_selected s = false -> ~ recognized s cid sid ->
  let old := if g =? 3 then Mk_backoff 0 0 else pause s in
  let due := negb (g =? 2) && (bo_count old =? 0) in
  if due && negb (length (logon_answers s) =? 0)%nat then receive E t s = UB AssertFailed
  else exists s', receive E t s = Ok (tt, s', []) /\ took s p s' /\ new_station s' = (cid, sid) /\
    (if cid =? known_station s
     then own_addresses s' = (primary (r_addrs (rxs s)), consist (r_addrs (rxs s)),
            Addr 0 (atyp (logon (r_addrs (rxs s)))) (arev (logon (r_addrs (rxs s))))) /\
          is_selected s' = false /\ is_assigned s' = false /\ to_store s' = false
     else own_addresses s' = own_addresses s /\ is_selected s' = false /\ is_assigned s' = is_assigned s /\
          to_store s' = to_store s) /\
    (if g =? 2 then pause s' = pause s /\ logon_answers s' = logon_answers s /\ app s' = app s
     else if bo_count old =? 0
     then answers_with s' (enable_answer (own_id s)) /\
          pause s' = Mk_backoff (Z.min (bo_range old + 1) 3) (fst (e_rand E (app s)) mod (8 * 2 ^ bo_range old)) /\
          app s' = snd (e_rand E (app s))
     else pause s' = Mk_backoff (bo_range old) (bo_count old - 1) /\ logon_answers s' = logon_answers s /\ app s' = app s).
Proof. exact @enabled_new. Qed.
Print Assumptions C49_answers.

(** The first ENABLE of station 0x1234; after the selection; by a decoder that has stored
    session 4 of this station *)
Example C49_ex :
  let p := enable_5 in
  let s := after (talk [] ++ almost p) ready_made in
  let x := after (talk [enable_5; select_1234 145] ++ almost p) ready_made in
  let y := after (talk [] ++ almost p) (put (put (put ready_made 65296 0x12) 65297 0x34) 65298 4) in
  says p (Enable 0 0x1234 5) /\ undamaged p /\ hears toy s 58 p /\ hears toy x 58 p /\ hears toy y 58 p /\
  logon_on s = true /\ is_selected s = false /\ ~ recognized s 0x1234 5 /\ pause s = Mk_backoff 0 0 /\ logon_answers s = [] /\
  is_selected x = true /\ is_selected y = false /\ recognized y 0x1234 5.
Proof.
  cbv zeta. split; [exact (says_enable 12 0x1234 5 [xor_all [0xFE; 0xFC; 0x12; 0x34; 5]] ltac:(lia) ltac:(lia))|].
  split; [left; vm_compute; auto|].
  do 3 (split; [apply heard_last; vm_compute; reflexivity|]).
  split; [vm_compute; reflexivity|]. split; [vm_compute; reflexivity|].
  split; [intros [H _]; vm_compute in H; discriminate|].
  do 4 (split; [vm_compute; reflexivity|]). split; [vm_compute; reflexivity|]. vm_compute. split; discriminate.
Qed.

(** * C50 *)

(** Flag bits 11: the address handed out is the new one *)
Theorem C50_assigned : forall (I : Type) (E : Env I) (s : st I) t p id a b x c man rest A, hears E s t p ->
  p = 254 :: 224 + c :: man :: id ++ a :: b :: x :: rest ->
  0 <= c < 16 -> undamaged p -> logon_on s = true -> id = own_id s -> logon_answers s = [] ->
  192 <= a -> (a mod 64 = 56 -> 1 <= b < 128) -> handed_out a b = Some A ->
  exists s', receive E t s = Ok (tt, s', []) /\ logon (r_addrs (rxs s')) = A /\ is_assigned s' = true /\ to_store s' = true /\
    primary (r_addrs (rxs s')) = primary (r_addrs (rxs s)) /\ aval (consist (r_addrs (rxs s'))) = 0 /\ answers_with s' assign_answer.
Proof. exact @assigned_11. Qed.
Print Assumptions C50_assigned.

(** Then exactly packets with that number and broadcasts are obeyed *)
Theorem C50_obeys : forall (I : Type) (E : Env I) (s : st I) n p q b s' es, reached E s ->
  loco_number (logon (r_addrs (rxs s))) n -> n <> 0 -> ready s p q -> in_service s = false ->
  execute E s = Ok (b, s', es) ->
  (b = true <-> for_locos p /\ (aval (address_of p) = 0 \/ aval (address_of p) = n)).
Proof. exact @obeys_assigned. Qed.
Print Assumptions C50_obeys.

(** In general: the address bytes are read like the start of a packet; with other flag
    bits than 11 the own address is replaced, too *)
Theorem C50_general : forall (I : Type) (E : Env I) (s : st I) t p id a b x c man rest A, hears E s t p ->
  p = 254 :: 224 + c :: man :: id ++ a :: b :: x :: rest ->
  0 <= c < 16 -> undamaged p -> logon_on s = true -> id = own_id s -> understood a b x = Some A ->
  match logon_answers s with
  | [] => exists s', receive E t s = Ok (tt, s', []) /\ took s p s' /\
      own_addresses s' = (if negb (aval A =? 0) && (a <? 192) then A else primary (r_addrs (rxs s)),
        Addr 0 (atyp (consist (r_addrs (rxs s)))) (arev (consist (r_addrs (rxs s)))), A) /\
      is_assigned s' = true /\ to_store s' = true /\ answers_with s' assign_answer /\
      is_selected s' = is_selected s /\ new_station s' = new_station s /\ pause s' = pause s /\ app s' = app s
  | _ => receive E t s = UB AssertFailed
  end.
Proof. exact @assigned. Qed.
Print Assumptions C50_general.

(** Other flag bits: never the long address handed out *)
Theorem C50_other_flags : forall (I : Type) (E : Env I) (s : st I) t p id a b x c man rest, hears E s t p ->
  p = 254 :: 224 + c :: man :: id ++ a :: b :: x :: rest ->
  0 <= c < 16 -> undamaged p -> logon_on s = true -> id = own_id s -> logon_answers s = [] -> a < 192 -> a mod 64 < 40 ->
  exists s', receive E t s = Ok (tt, s', []) /\ is_assigned s' = true /\ to_store s' = true /\ answers_with s' assign_answer /\
    handed_out a b <> Some (logon (r_addrs (rxs s'))) /\
    (aval (logon (r_addrs (rxs s'))) <> 0 -> primary (r_addrs (rxs s')) = logon (r_addrs (rxs s'))).
Proof. exact @assigned_other. Qed.
Print Assumptions C50_other_flags.

(** Address 1000 with the flag bits 00 makes the decoder number 3 *)
Theorem C50_flags_refuted : exists (cvs : Z -> Z) os s es, run toy os (st0 cvs) = Ok (tt, s, es) /\
  os = talk [enable_5; select_1234 145; assign_to 0x03 0xE8] /\ handed_out 0x03 0xE8 = Some (Addr 1000 ATLong false) /\
  logon (r_addrs (rxs s)) = Addr 3 ATShort false /\ is_assigned s = true.
Proof. exact wrong_flags. Qed.
Print Assumptions C50_flags_refuted.

(** With the long address 100 the decoder also obeys the short address 100 *)
Theorem C50_short_refuted : exists (cvs : Z -> Z) s, let p := [100; 0x3F; 0x90; 0xCB] in
  reached toy s /\ ready s p [] /\ logon (r_addrs (rxs s)) = Addr 100 ATLong false /\ address_of p = Addr 100 ATShort false /\
  shows s = Some (true, [EWriteCv 18 0 0; EWriteCv 19 0 0; EWriteCv 65296 0x12 0x12; EWriteCv 65297 0x34 0x34; EWriteCv 65298 5 5;
    EWriteCv 65299 0 0; EWriteCv 65300 100 100; EDirection 3 true; ESpeed 3 30]).
Proof. exact short_too. Qed.
Print Assumptions C50_short_refuted.

(** 1000 with flag bits 11 and 00; the assigned decoder before a packet to 1000 *)
Example C50_ex : let p := assign_to 0xC3 0xE8 in let p' := assign_to 0x03 0xE8 in
  let s := after (talk [enable_5; select_1234 145] ++ almost p) ready_made in
  let s' := after (talk [enable_5; select_1234 145] ++ almost p') ready_made in
  let d := [0xC3; 0xE8; 0x3F; 0x90; 0x84] in
  let x := after (talk [enable_5; select_1234 145; p; d] ++ [OReceive 58]) ready_made in
  hears toy s 58 p /\ p = 254 :: 224 + 0 :: 145 :: [1; 2; 3; 4] ++ 0xC3 :: 0xE8 :: nth 9 p 0 :: [nth 10 p 0] /\ undamaged p /\
  logon_on s = true /\ own_id s = [1; 2; 3; 4] /\ logon_answers s = [] /\ handed_out 0xC3 0xE8 = Some (Addr 1000 ATLong false) /\
  hears toy s' 58 p' /\ undamaged p' /\ own_id s' = [1; 2; 3; 4] /\ logon_answers s' = [] /\
  reached toy x /\ loco_number (logon (r_addrs (rxs x))) 1000 /\ ready x d [] /\ in_service x = false /\ defined x = true.
Proof.
  cbv zeta. split; [apply heard_last; vm_compute; reflexivity|]. split; [reflexivity|]. split; [right; vm_compute; reflexivity|].
  do 4 (split; [vm_compute; reflexivity|]). split; [apply heard_last; vm_compute; reflexivity|]. split; [right; vm_compute; reflexivity|].
  do 2 (split; [vm_compute; reflexivity|]). split; [apply after_reached; vm_compute; reflexivity|].
  split; [split; [right; vm_compute; reflexivity|vm_compute; reflexivity]|]. split; [split; vm_compute; reflexivity|]. split; vm_compute; reflexivity.
Qed.

(** * C51 *)

(** The first execution after the assignment stores the logon address without the two bits
    that mark a long address, the command station and, if it was replaced, the own address *)
Theorem C51_store : forall (I : Type) (E : Env I) (s : st I) p q b s' es, reached E s -> ready s p q -> to_store s = true ->
  execute E s = Ok (b, s', es) ->
  to_store s' = false /\ exists e1 e2, es = e1 ++ e2 /\
    (same_address (primary (r_addrs (rxs s))) (logon (r_addrs (rxs s))) ->
       accesses e1 = stores_own (aval (primary (r_addrs (rxs s)))) ++
         stores_logon (fst (new_station s)) (snd (new_station s)) (aval (logon (r_addrs (rxs s))))) /\
    (~ same_address (primary (r_addrs (rxs s))) (logon (r_addrs (rxs s))) ->
       accesses e1 = stores_logon (fst (new_station s)) (snd (new_station s)) (aval (logon (r_addrs (rxs s))))).
Proof. exact @execute_stores. Qed.
Print Assumptions C51_store.

(** No address survives: what is read back for [n] is [n / 256] *)
Theorem C51_restored : forall (I : Type) (E : Env I) (s : st I) t p g cid sid n i1 i2, hears E s t p ->
  says p (Enable g cid sid) -> undamaged p -> logon_on s = true -> is_selected s = false -> recognized s cid sid ->
  0 < n < 16384 -> e_readCv E (app s) 65299 = (n / 256, i1) -> e_readCv E i1 65300 = (n mod 256, i2) ->
  exists s' es, receive E t s = Ok (tt, s', es) /\ is_assigned s' = true /\
    aval (logon (r_addrs (rxs s'))) = n / 256 /\ n / 256 <> n.
Proof. exact @restored_wrong. Qed.
Print Assumptions C51_restored.

(** Address 1000 assigned and stored, power off and on, the same command station: 3 *)
Theorem C51_refuted : exists (cvs : Z -> Z) s1 e1 s2 e2,
  run toy (talk [enable_5; select_1234 145; assign_to 0xC3 0xE8; [0xC3; 0xE8; 0x3F; 0x90; 0x84]] ++ [OReceive 58; OExecute]) (st0 cvs) = Ok (tt, s1, e1) /\
  logon (r_addrs (rxs s1)) = Addr 1000 ATLong false /\ is_assigned s1 = true /\ to_store s1 = false /\
  run toy (talk [enable_6]) (st0 (app s1)) = Ok (tt, s2, e2) /\
  is_assigned s2 = true /\ logon (r_addrs (rxs s2)) = Addr 3 ATShort false.
Proof. exact not_restored. Qed.
Print Assumptions C51_refuted.

(** Before storing; and before the ENABLE after the power cycle *)
Example C51_ex : let d := [0xC3; 0xE8; 0x3F; 0x90; 0x84] in
  let s := after (talk [enable_5; select_1234 145; assign_to 0xC3 0xE8; d] ++ [OReceive 58]) ready_made in
  let x := after (talk [] ++ almost enable_6) stored_memory in
  reached toy s /\ ready s d [] /\ to_store s = true /\ defined s = true /\
  hears toy x 58 enable_6 /\ says enable_6 (Enable 0 0x1234 6) /\ undamaged enable_6 /\ logon_on x = true /\ is_selected x = false /\
  recognized x 0x1234 6 /\ app x 65299 = 1000 / 256 /\ app x 65300 = 1000 mod 256.
Proof.
  cbv zeta. split; [apply after_reached; vm_compute; reflexivity|]. split; [split; vm_compute; reflexivity|].
  do 2 (split; [vm_compute; reflexivity|]). split; [apply heard_last; vm_compute; reflexivity|].
  split; [exact (says_enable 12 0x1234 6 [xor_all [0xFE; 0xFC; 0x12; 0x34; 6]] ltac:(lia) ltac:(lia))|]. split; [left; vm_compute; auto|].
  do 2 (split; [vm_compute; reflexivity|]). split; [|split; vm_compute; reflexivity]. split; [vm_compute; reflexivity|]. vm_compute. split; discriminate.
Qed.

(** * C52 *)

(** Never two answers; a second one is stopped by an assertion *)
Theorem C52_one : forall (I : Type) (E : Env I) i os (s : st I) es, run E os (st0 i) = Ok (tt, s, es) ->
  (length (logon_answers s) <= 1)%nat.
Proof. exact @one_answer. Qed.
Print Assumptions C52_one.

(** The assertion fails only if an answer has not been fetched *)
Theorem C52_fails : forall (I : Type) (E : Env I) i os (s : st I) es t, run E os (st0 i) = Ok (tt, s, es) ->
  receive E t s = UB AssertFailed -> logon_answers s <> [].
Proof. exact @fails_full. Qed.
Print Assumptions C52_fails.

(** It does not if channel 2 follows each logon packet *)
Theorem C52_served : forall (I : Type) (E : Env I) i os (s : st I) es t, run E os (st0 i) = Ok (tt, s, es) -> served os ->
  receive E t s <> UB AssertFailed.
Proof. exact @served_fine. Qed.
Print Assumptions C52_served.

(** Two ENABLE in succession *)
Theorem C52_refuted : exists (cvs : Z -> Z) s t es,
  run toy ([OInit; OEnable] ++ track enable_now ++ almost enable_now) (st0 cvs) = Ok (tt, s, es) /\
  length (logon_answers s) = 1%nat /\ receive toy t s = UB AssertFailed.
Proof. exact second_answer. Qed.
Print Assumptions C52_refuted.

Example C52_ex : let os := talk [enable_now; enable_now; select_1234 145; assign_to 0xC3 0xE8] in
  runs os ready_made = true /\ served os.
Proof. cbv zeta. split; [vm_compute; reflexivity|]. apply served_spec. vm_compute. reflexivity. Qed.

(** * C53 *)

(** A logon packet of more than 7 bytes with a wrong CRC *)
Theorem C53_damaged : forall (I : Type) (E : Env I) (s : st I) t p, hears E s t p -> is_logon p = true -> ~ undamaged p ->
  exists s', receive E t s = Ok (tt, s', []) /\ took s p s' /\ unmoved s s'.
Proof. exact @damaged_ignored. Qed.
Print Assumptions C53_damaged.

(** Selection with 0xFE instead of the 0xFF that was sent *)
Example C53_ex : let p := closed (firstn 7 (select_1234 145) ++ [0xFE; nth 8 (select_1234 145) 0]) in
  let s := after (talk [enable_5] ++ almost p) ready_made in
  hears toy s 58 p /\ is_logon p = true /\ ~ undamaged p.
Proof.
  cbv zeta. split; [apply heard_last; vm_compute; reflexivity|]. split; [reflexivity|].
  intros [H|H]; vm_compute in H; [|discriminate]. repeat apply le_S_n in H. inversion H.
Qed.
