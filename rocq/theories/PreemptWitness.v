(** Interrupted executions for the examples *)
From Verif Require Import Prelude Address SpecCodec RxState Rx SpecRx SpecConf Toy CvWitness LogonWitness AsyncWitness Preempt SpecPreempt.

Fixpoint no_logonb (os : list op) (l : listener) : bool :=
  match os with
  | [] => true
  | o :: r => match completed o l with Some bs => negb (is_logon bs) | None => true end && no_logonb r (listen o l)
  end.
Lemma no_logonb_ok : forall os l, no_logonb os l = true -> no_logon os l.
Proof.
  induction os as [|o os IH]; intros l H; [exact Logic.I|]. cbn [no_logonb] in H.
  apply andb_prop in H. destruct H as [H1 H2]. split; [|apply IH; exact H2].
  intros bs Hb. rewrite Hb in H1. destruct (is_logon bs); [discriminate|reflexivity].
Qed.
Definition is_handler (o : op) : bool := match o with OReceive _ | OBiDi1 | OBiDi2 => true | _ => false end.
Lemma handlers_ok : forall w, forallb (forallb is_handler) w = true -> Forall (Forall handler) w.
Proof.
  intros w H. apply Forall_forall. intros os Hos. apply Forall_forall. intros o Ho.
  rewrite forallb_forall in H. specialize (H _ Hos). rewrite forallb_forall in H. specialize (H _ Ho).
  destruct o; try discriminate; exact Logic.I.
Qed.
Definition not_execute (o : op) : bool := match o with OExecute => false | _ => true end.
Lemma interrupting_ok : forall ts : session_plan,
  forallb (fun t => forallb (forallb not_execute) (snd t)) ts = true -> Forall (fun t => interrupting (snd t)) ts.
Proof.
  intros ts H. apply Forall_forall. intros t Ht. apply Forall_forall. intros os Hos. apply Forall_forall. intros o Ho.
  rewrite forallb_forall in H. specialize (H _ Ht). rewrite forallb_forall in H. specialize (H _ Hos).
  rewrite forallb_forall in H. specialize (H _ Ho). destruct o; discriminate.
Qed.

(** Speed and function packets for address 3. The second one arrives while the first is
    being executed, in two pieces, with a cutout before it *)
Definition go : list Z := closed [3; 0x3F; 0x90].
Definition lamp : list Z := closed [3; 0x90].
Definition busy : list (list op) :=
  [[]; [OBiDi1; OBiDi2]; firstn 30 (track lamp); []; skipn 30 (track lamp); []; [OReceive 58; OReceive 100]].
Definition plan : session_plan :=
  [([OInit; OEnable] ++ arriving [go], busy); ([], [[]; [OReceive 58]])].
Definition played (ts : session_plan) (cvs : Z -> Z) : list outcome * st (Z -> Z) * list event :=
  match session toy ts (st0 cvs) with Ok x => x | UB _ => ([], st0 cvs, []) end.
Definition plays (ts : session_plan) (cvs : Z -> Z) : bool :=
  match session toy ts (st0 cvs) with Ok _ => true | UB _ => false end.
Lemma plays_ok : forall ts cvs, plays ts cvs = true ->
  session toy ts (st0 cvs) = Ok (fst (fst (played ts cvs)), snd (fst (played ts cvs)), snd (played ts cvs)).
Proof.
  intros ts cvs H. unfold plays, played in *. destruct (session toy ts (st0 cvs)) as [[[o s] es]|]; [reflexivity|discriminate].
Qed.
Definition cut (w : list (list op)) (s : st (Z -> Z)) : outcome * st (Z -> Z) * list event :=
  match preempted toy (executeP toy) w s with Ok x => x | UB _ => ((false, [], []), s, []) end.
Definition cuts (w : list (list op)) (s : st (Z -> Z)) : bool :=
  match preempted toy (executeP toy) w s with Ok _ => true | UB _ => false end.
Lemma cuts_ok : forall w s, cuts w s = true ->
  preempted toy (executeP toy) w s = Ok (fst (fst (cut w s)), snd (fst (cut w s)), snd (cut w s)).
Proof.
  intros w s H. unfold cuts, cut in *. destruct (preempted toy (executeP toy) w s) as [[[o s'] es]|]; [reflexivity|discriminate].
Qed.

(** Assigned address 1000; while it is being stored the decoder is assigned address 1234 *)
Definition assigned_1000 : list op :=
  talk [enable_5; select_1234 0x91; assign_to 0xC3 0xE8] ++ track go ++ [OReceive 58].
Definition reassigned : list (list op) := repeat [] 25 ++ [track (assign_to 0xC4 0xD2) ++ [OBiDi1; OBiDi2]].
Lemma torn_address : exists (cvs : Z -> Z) os s e1 w o s' es, run toy os (st0 cvs) = Ok (tt, s, e1) /\
  Forall (Forall handler) w /\ preempted toy (executeP toy) w s = Ok (o, s', es) /\
  logon (r_addrs (rxs s)) = Addr 1000 ATLong false /\ logon (r_addrs (rxs s')) = Addr 1234 ATLong false /\
  256 * app s' 65299 + app s' 65300 = 978 /\ logon_store (r_logon (rxs s')) = true.
Proof.
  set (s := after assigned_1000 ready_made).
  destruct (run toy assigned_1000 (st0 ready_made)) as [[[[] s0] e1]|] eqn:Er; [|vm_compute in Er; discriminate].
  assert (Hs : s = s0) by (unfold s, after; rewrite Er; reflexivity).
  exists ready_made, assigned_1000, s, e1, reassigned,
    (fst (fst (cut reassigned s))), (snd (fst (cut reassigned s))), (snd (cut reassigned s)).
  split; [rewrite Hs; exact Er|]. clear e1 s0 Er Hs.
  split; [apply handlers_ok; vm_compute; reflexivity|].
  split; [apply cuts_ok; vm_compute; reflexivity|].
  split; [vm_compute; reflexivity|]. split; [vm_compute; reflexivity|]. split; vm_compute; reflexivity.
Qed.
