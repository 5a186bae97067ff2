(** CV accesses whose execution is interrupted, for the examples *)
From Verif Require Import Prelude Address SpecCodec Datagram RxState Rx SpecRx SpecExec SpecConf SpecCv SpecBidi Toy CvWitness LogonWitness
  SpecStation SpecLayout LayoutWitness BidiWitness SpecDialog DialogWitness Preempt SpecPreempt PreemptWitness SpecOffer SpecStale.

(** CV3 is 77, CV4 is 9. CV3 was read. CV4 is to be read; the packet comes twice, the second
    time while the first is executed. *)
Definition two_cvs : Z -> Z := put owned 3 9.
Definition read4 : list Z := frame 3 [0xE4; 3; 0].
Definition reading4 : list op := OInit :: DialogWitness.served read3 ++ tones read4 ++ [OBiDi1; OBiDi2; OReceive 58].
Definition again (n : nat) : list (list op) := repeat [] n ++ [tones read4 ++ [OBiDi1; OBiDi2]].
Lemma reading4_ok : exists e1, run toy reading4 (st0 two_cvs) = Ok (tt, LogonWitness.after reading4 two_cvs, e1).
Proof.
  destruct (run toy reading4 (st0 two_cvs)) as [[[[] s0] e1]|] eqn:Er; [|vm_compute in Er; discriminate].
  exists e1. unfold LogonWitness.after. rewrite Er. reflexivity.
Qed.
Definition speaking (m : moment (I := Z -> Z)) : bool :=
  match m with (s, OBiDi2, _ :: _) => true | _ => false end.
Definition spoke (n : nat) : moment := 
  let s := LogonWitness.after reading4 two_cvs in
  match find speaking (meanwhile toy (executeP toy) (again n) s) with Some m => m | None => (s, OInit, []) end.
Lemma spoke_in : forall n, speaking (spoke n) = true ->
  In (spoke n) (meanwhile toy (executeP toy) (again n) (LogonWitness.after reading4 two_cvs)).
Proof.
  intros n H. unfold spoke in *. destruct (find speaking _) as [m|] eqn:Ef; [|discriminate]. apply find_some in Ef. apply Ef.
Qed.

Lemma spoke_in' : forall n, speaking (spoke n) = true ->
  In (fst (fst (spoke n)), OBiDi2, snd (spoke n)) (meanwhile toy (executeP toy) (again n) (LogonWitness.after reading4 two_cvs)).
Proof.
  intros n H. pose proof (spoke_in n H) as K. destruct (spoke n) as [[s o] es]. cbn [fst snd] in *. destruct o; try discriminate. exact K.
Qed.
Lemma stale_read : exists (cvs : Z -> Z) os s e1 w o s' es m es' d, run toy os (st0 cvs) = Ok (tt, s, e1) /\
  Forall (Forall handler) w /\ no_logon (SpecPreempt.served o) (listen_all os listener0) /\
  preempted toy (executeP toy) w s = Ok (o, s', es) /\ worked_on o = Some (frame 3 [0xE4; 3; 0]) /\ in_service s = false /\
  In (m, OBiDi2, es') (meanwhile toy (executeP toy) w s) /\ own_packet m /\ for_cvs m /\ last_bytes m = frame 3 [0xE4; 3; 0] /\
  cvs 3 = 9 /\ app s' 3 = 9 /\ SpecBidi.sent es' = [d] /\ make_data (decode_datagram d) = Ok 77.
Proof.
  set (s := LogonWitness.after reading4 two_cvs).
  destruct reading4_ok as (e1 & Er).
  exists two_cvs, reading4, s, e1, (again 20), (fst (fst (cut (again 20) s))), (snd (fst (cut (again 20) s))), (snd (cut (again 20) s)),
    (fst (fst (spoke 20))), (snd (spoke 20)), (hd [] (SpecBidi.sent (snd (spoke 20)))).
  split; [exact Er|]. clear e1 Er.
  split; [apply handlers_ok; vm_compute; reflexivity|].
  split; [apply no_logonb_ok; vm_compute; reflexivity|].
  split; [apply cuts_ok; vm_compute; reflexivity|].
  split; [vm_compute; reflexivity|]. split; [vm_compute; reflexivity|].
  split.
  { apply spoke_in'. vm_compute. reflexivity. }
  split; [split; vm_compute; [left; reflexivity|tauto]|].
  split; [vm_compute; split; [discriminate|reflexivity]|].
  do 4 (split; [vm_compute; reflexivity|]). vm_compute. reflexivity.
Qed.

(** The same a few steps later: the true value. And what is left. *)
Lemma true_read : let s := LogonWitness.after reading4 two_cvs in let r := cut (again 31) s in
  (exists e1, run toy reading4 (st0 two_cvs) = Ok (tt, s, e1)) /\
  Forall (Forall handler) (again 31) /\ no_logon (SpecPreempt.served (fst (fst r))) (listen_all reading4 listener0) /\
  preempted toy (executeP toy) (again 31) s = Ok (fst (fst r), snd (fst r), snd r) /\
  worked_on (fst (fst r)) = Some read4 /\ cv_packet read4 /\ in_service s = false /\
  map (fun d => make_data (decode_datagram d)) (skipn 1 (SpecBidi.sent (snd r))) = [Ok 9] /\
  map (fun d => make_data (decode_datagram d)) (cv_waiting s) = [Ok 77] /\ cv_waiting (snd (fst r)) = [].
Proof.
  cbv zeta. set (s := LogonWitness.after reading4 two_cvs).
  split; [exact reading4_ok|].
  split; [apply handlers_ok; vm_compute; reflexivity|].
  split; [apply no_logonb_ok; vm_compute; reflexivity|].
  split; [apply cuts_ok; vm_compute; reflexivity|].
  split; [vm_compute; reflexivity|]. split; [vm_compute; split; [discriminate|reflexivity]|].
  do 3 (split; [vm_compute; reflexivity|]). vm_compute. reflexivity.
Qed.

(** CV3 is read again; the packet has not ended yet, so nothing is executed *)
Definition read_again : list op := OInit :: DialogWitness.served read3 ++ tones read3.
Lemma idle_read : let s := LogonWitness.after read_again two_cvs in let w := [[OBiDi1; OBiDi2]] in let r := cut w s in
  Forall (Forall handler) w /\ no_logon (SpecPreempt.served (fst (fst r))) (listen_all read_again listener0) /\
  preempted toy (executeP toy) w s = Ok (fst (fst r), snd (fst r), snd r) /\ worked_on (fst (fst r)) = None /\
  map (fun d => make_data (decode_datagram d)) (skipn 1 (SpecBidi.sent (snd r))) = [Ok 77].
Proof.
  cbv zeta. split; [apply handlers_ok; vm_compute; reflexivity|]. split; [apply no_logonb_ok; vm_compute; reflexivity|].
  split; [apply cuts_ok; vm_compute; reflexivity|]. split; vm_compute; reflexivity.
Qed.
