(** The decoder as an interpreter of packets, automatic logon included, and what it obeys
    once it has been handed out an address *)
From Verif Require Import Prelude Address SpecCodec RxState Rx SpecRx SpecExec SpecConf SpecCv SpecLogon Toy LogonWitness SpecLayout SpecNode
  NodeProofs6 NodeProofs7 NodeWitness.

(** * C100 *)

(** Any calls of the library on a new decoder, logon packets and repeated init() included:
    what the application sees, its CVs and the addresses in force are those of the
    interpreter [attend_all], provided it writes only what the application is [able] to
    keep *)
Theorem C100_interpreter : forall (I : Type) (E : Env I) (m : I -> Z -> Z) able, keeps_cvs able E m ->
  forall os i s es, run E os (st0 i) = Ok (tt, s, es) ->
  let x := attend_all (e_east_west E) (inputs os listener0) (new_node (m i)) in
  Forall (allowed able) (snd x) ->
  seen_in es = snd x /\ (forall a, m (app s) a = v_cvs (n_view (fst x)) a) /\
  in_service s = v_service (n_view (fst x)) /\ page s = v_page (n_view (fst x)) /\
  own_addresses s = (n_own (fst x), n_consist (fst x), n_logon (fst x)) /\
  is_selected s = n_selected (fst x) /\ is_assigned s = n_assigned (fst x) /\ to_store s = n_store (fst x).
Proof. exact @node_runs. Qed.
Print Assumptions C100_interpreter.

Theorem C100_memory : keeps_cvs any_access toy (fun c a => u8 (c a)).
Proof. exact toy_keeps_any. Qed.
Print Assumptions C100_memory.

(** Logon with 1000, then packets for 1000, 3, 5 and all *)
Example C100_ex : exists s es, run toy (logging_on ++ afterwards) (st0 ready_made) = Ok (tt, s, es) /\
  inputs (logging_on ++ afterwards) listener0 =
    Configured :: map Heard [enable_5; select_1234 145; assign_other; assign_to 0xC3 0xE8] ++
    map Taken [loco 3 [0x3F; 0x90]; loco 1000 [0x3F; 0x90]; loco 3 [0x3F; 0x95]] ++ [Heard enable_6] ++
    map Taken [loco 1000 [0xEC; 28; 0x06]; loco 1000 [0xEC; 28; 0x06]; loco 0 [0x3F; 0x81]; loco 5 [0x3F; 0x95]] /\
  snd (attend_all false (inputs (logging_on ++ afterwards) listener0) (new_node (fun a => u8 (ready_made a)))) =
    map Access [Store 18 0; Store 19 0; Store 65296 0x12; Store 65297 0x34; Store 65298 5; Store 65299 3; Store 65300 232] ++
    [Told (EDirection 3 true); Told (ESpeed 3 30); Access (Store 28 6); Told (ESpeed 0 (-1))] /\
  Forall (allowed any_access) (snd (attend_all false (inputs (logging_on ++ afterwards) listener0) (new_node (fun a => u8 (ready_made a))))).
Proof.
  do 2 eexists. split; [vm_compute; reflexivity|]. split; [vm_compute; reflexivity|]. split; [vm_compute; reflexivity|].
  apply Forall_forall. intros x _. destruct x; unfold allowed, any_access; auto.
Qed.

(** * C101 *)

(** Selected and then handed out address [A], with any other logon packets between and
    after that hand out nothing to this decoder: it is logged on with [A]. Nothing is seen of
    that, no CV changes yet. *)
Theorem C101_logon : forall ew n id A sel asg a b ps qs,
  logon_enabled (n_conf n) = true -> n_assigned n = false -> did (n_conf n) = id ->
  says sel (Select id) -> undamaged sel -> says asg (Assign id a b) -> undamaged asg ->
  understood a b (nth 9 asg 0) = Some A -> aval A <> 0 -> Forall (not_for id) ps -> Forall (not_for id) qs ->
  let x := attend_all ew (map Heard (sel :: ps ++ asg :: qs)) n in
  logged_on A (fst x) /\ snd x = [] /\ n_view (fst x) = n_view n /\ n_store (fst x) = true /\
  n_own (fst x) = if a <? 192 then A else n_own n.
Proof. exact logged_in. Qed.
Print Assumptions C101_logon.

(** Once stored, only packets for [A] and for all matter, and init(): with all others, logon
    packets included, left out the same is seen and the CVs are the same. And [A] stays. *)
Theorem C101_obeyed : forall (I : Type) (E : Env I) (m : I -> Z -> Z) able, keeps_cvs able E m ->
  forall os1 os2 i s es A, run E (os1 ++ os2) (st0 i) = Ok (tt, s, es) ->
  let n := fst (attend_all (e_east_west E) (inputs os1 listener0) (new_node (m i))) in
  let xs := inputs os2 (listen_all os1 listener0) in
  let ys := attend_all (e_east_west E) (filter (concerns (aval A)) xs) n in
  logged_on A n -> n_store n = false -> v_service (n_view n) = false -> Forall ordinary xs ->
  Forall (allowed able) (snd (attend_all (e_east_west E) (inputs os1 listener0) (new_node (m i)))) -> Forall (allowed able) (snd ys) ->
  exists s1 e1 e2, run E os1 (st0 i) = Ok (tt, s1, e1) /\ run E os2 s1 = Ok (tt, s, e2) /\ es = e1 ++ e2 /\
    seen_in e2 = snd ys /\ (forall a, m (app s) a = v_cvs (n_view (fst ys)) a) /\ logon (r_addrs (rxs s)) = A.
Proof. exact @handed_out_obeyed. Qed.
Print Assumptions C101_obeyed.

(** Two decoders logged on with different numbers: no packet for one locomotive has an
    effect on both *)
Theorem C101_apart : forall ew A B n n' p, logged_on A n -> logged_on B n' -> aval A <> aval B -> aval (address_of p) <> 0 ->
  operate ew p n = (n, []) \/ operate ew p n' = (n', []).
Proof. exact apart. Qed.
Print Assumptions C101_apart.

(** A packet [p] for the address handed out has the effect that [p'], the same for the own
    number, has on the decoder before logon *)
Theorem C101_stands_for : forall ew A n n' p p', logged_on A n -> aval (n_logon n') = 0 -> same_but_logon p p' n n' ->
  has_number A (aval (address_of p)) = true -> In (atyp (address_of p)) [ATShort; ATLong] ->
  has_number (n_own n') (aval (address_of p')) = true -> In (atyp (address_of p')) [ATShort; ATLong] -> aval (n_own n') <> 0 ->
  aval (n_own n') <> aval (n_consist n) -> aval (n_own n') <> aval (n_consist n') ->
  forall b0 ops c c', body_of p = b0 :: ops ++ [c] -> body_of p' = b0 :: ops ++ [c'] -> (operands b0 <= length ops)%nat ->
  snd (operate ew p n) = snd (operate ew p' n') /\ same_but_logon p p' (fst (operate ew p n)) (fst (operate ew p' n')).
Proof. exact stands_for. Qed.
Print Assumptions C101_stands_for.

Example C101_ex :
  let n := fst (attend_all false (inputs logging_on listener0) (new_node (fun a => u8 (ready_made a)))) in
  let xs := inputs afterwards (listen_all logging_on listener0) in
  logged_on (Addr 1000 ATLong false) n /\ n_store n = false /\ v_service (n_view n) = false /\ Forall ordinary xs /\
  filter (concerns 1000) xs = map Taken [loco 1000 [0x3F; 0x90]; loco 1000 [0xEC; 28; 0x06]; loco 1000 [0xEC; 28; 0x06]; loco 0 [0x3F; 0x81]] /\
  snd (attend_all false (filter (concerns 1000) xs) n) =
    [Told (EDirection 3 true); Told (ESpeed 3 30); Access (Store 28 6); Told (ESpeed 0 (-1))] /\
  exists s es, run toy (logging_on ++ afterwards) (st0 ready_made) = Ok (tt, s, es).
Proof.
  intros n xs. assert (xs = [Taken (loco 1000 [0x3F; 0x90]); Taken (loco 3 [0x3F; 0x95]); Heard enable_6; Taken (loco 1000 [0xEC; 28; 0x06]);
    Taken (loco 1000 [0xEC; 28; 0x06]); Taken (loco 0 [0x3F; 0x81]); Taken (loco 5 [0x3F; 0x95])]) as H by (vm_compute; reflexivity).
  split; [repeat split; vm_compute; congruence|]. split; [vm_compute; reflexivity|]. split; [vm_compute; reflexivity|].
  split; [rewrite H; repeat (apply Forall_cons; [cbn; lia|]); apply Forall_nil|]. split; [rewrite H; vm_compute; reflexivity|].
  split; [vm_compute; reflexivity|]. do 2 eexists. vm_compute. reflexivity.
Qed.

(** The hypotheses of [C101_logon], by the packets of the example *)
Example C101_ex_logon :
  let n := configure (new_node (fun a => u8 (ready_made a))) in
  logon_enabled (n_conf n) = true /\ n_assigned n = false /\ did (n_conf n) = [1; 2; 3; 4] /\
  says (select_1234 145) (Select [1; 2; 3; 4]) /\ undamaged (select_1234 145) /\
  says (assign_to 0xC3 0xE8) (Assign [1; 2; 3; 4] 0xC3 0xE8) /\ undamaged (assign_to 0xC3 0xE8) /\
  understood 0xC3 0xE8 (nth 9 (assign_to 0xC3 0xE8) 0) = Some (Addr 1000 ATLong false) /\
  Forall (not_for [1; 2; 3; 4]) [assign_other] /\ Forall (not_for [1; 2; 3; 4]) [enable_6].
Proof.
  intros n. split; [reflexivity|]. split; [reflexivity|]. split; [reflexivity|].
  split; [exact (says_select 0 145 [1; 2; 3; 4] (skipn 7 (select_1234 145)) ltac:(lia) eq_refl)|].
  split; [right; vm_compute; reflexivity|].
  split; [exact (says_assign 0 145 [1; 2; 3; 4] 0xC3 0xE8 _ [_] ltac:(lia) eq_refl)|]. split; [right; vm_compute; reflexivity|].
  split; [reflexivity|].
  split; (apply Forall_cons; [|apply Forall_nil]); unfold not_for; vm_compute; intuition congruence.
Qed.

(** The same drive command for 1000 after logon and for 3 before *)
Example C101_ex_stands :
  let n := fst (attend_all false (inputs logging_on listener0) (new_node (fun a => u8 (ready_made a)))) in
  let n' := configure (new_node (v_cvs (n_view n))) in
  logged_on (Addr 1000 ATLong false) n /\ aval (n_logon n') = 0 /\
  same_but_logon (loco 1000 [0x3F; 0x90]) (loco 3 [0x3F; 0x90]) n n' /\ n_own n' = Addr 3 ATShort false /\
  aval (n_consist n) = 0 /\ aval (n_consist n') = 0 /\ 
  body_of (loco 1000 [0x3F; 0x90]) = 0x3F :: [0x90] ++ [132] /\ body_of (loco 3 [0x3F; 0x90]) = 0x3F :: [0x90] ++ [172] /\
  operands 0x3F = 1%nat /\
  snd (operate false (loco 1000 [0x3F; 0x90]) n) = [Told (EDirection 3 true); Told (ESpeed 3 30)].
Proof.
  intros n n'. split; [repeat split; vm_compute; congruence|]. split; [reflexivity|].
  split; [|repeat split; vm_compute; reflexivity].
  split; [reflexivity|]. repeat split; try (vm_compute; congruence).
Qed.

(** Nobody but all decoders together is put into service mode by a reset for one number:
    false for a decoder whose CV1 is 0 and that has been handed out this number *)
Theorem C101_reset_refuted : exists (c : Z -> Z) os1 os2 p s es, run toy (os1 ++ os2) (st0 c) = Ok (tt, s, es) /\
  inputs os2 (listen_all os1 listener0) = [Taken p] /\ address_of p = Addr 1000 ATLong false /\
  exists xs, seen_in es = xs ++ [Told (EServiceModeHook true)].
Proof. exact own_reset_seen. Qed.
Print Assumptions C101_reset_refuted.
