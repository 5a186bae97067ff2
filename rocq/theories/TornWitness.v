(** Interrupted sessions for the examples *)
From Verif Require Import Prelude Address SpecCodec RxState Rx SpecRx SpecConf SpecLayout Toy CvWitness LogonWitness AsyncWitness
  Preempt SpecPreempt PreemptWitness SpecTorn.

(** CV19 is written (put into consist 5) while the repetition arrives; while that is
    executed a speed packet for the consist arrives *)
Definition join : list Z := closed [3; 0xEC; 18; 5].
Definition ride : list Z := closed [5; 0x3F; 0x90].
Definition pieces (p : list Z) : list (list op) :=
  [[]; [OBiDi1; OBiDi2]; firstn 50 (track p); []; skipn 50 (track p); []; [OReceive 58]].
Definition joining : session_plan :=
  [(OEnable :: arriving [join], pieces join); ([], pieces ride); ([], [[]; [OBiDi1]])].

Definition never_fullb (os : list op) (l : listener) : bool :=
  forallb (fun k => (length (l_queue (listen_all (firstn k os) l)) <? 31)%nat) (seq 0 (S (length os))).
Lemma never_fullb_ok : forall os l, never_fullb os l = true -> never_full os l.
Proof.
  intros os l H os1 os2 ->. unfold never_fullb in H. rewrite forallb_forall in H.
  specialize (H (length os1)). rewrite firstn_app, Nat.sub_diag, firstn_O, app_nil_r, firstn_all in H.
  apply Nat.ltb_lt, H. apply in_seq. rewrite app_length. lia.
Qed.

Fixpoint roomyb (ts : session_plan) (outs : list outcome) (l : listener) : bool :=
  match ts, outs with
  | (os, _) :: ts', o :: outs' =>
      never_fullb os l && never_fullb (served o) (listen_all os l) && roomyb ts' outs' (turn os o l)
  | _, _ => true
  end.
Lemma roomyb_ok : forall ts outs l, roomyb ts outs l = true -> roomy ts outs l.
Proof.
  induction ts as [|[os w] ts IH]; intros [|o outs] l H; try exact Logic.I. cbn [roomyb roomy] in *.
  apply andb_prop in H. destruct H as [H H3]. apply andb_prop in H. destruct H as [H1 H2].
  split; [apply never_fullb_ok, H1|]. split; [apply never_fullb_ok, H2|apply IH, H3].
Qed.
Fixpoint unassignedb (ts : session_plan) (outs : list outcome) (l : listener) : bool :=
  match ts, outs with
  | (os, _) :: ts', o :: outs' =>
      match logons os l, logons (served o) (listen_all os l) with [], [] => unassignedb ts' outs' (turn os o l) | _, _ => false end
  | _, _ => true
  end.
Lemma unassignedb_ok : forall ts outs l, unassignedb ts outs l = true -> unassigned ts outs l.
Proof.
  induction ts as [|[os w] ts IH]; intros [|o outs] l H; try exact Logic.I. cbn [unassignedb unassigned] in *.
  destruct (logons os l); [|discriminate]. destruct (logons (served o) _); [|discriminate]. auto.
Qed.
Lemma planned_ok : forall ts : session_plan, forallb (fun t => forallb (forallb is_handler) (snd t)) ts = true ->
  Forall (fun t => Forall (Forall handler) (snd t)) ts.
Proof.
  intros ts H. apply Forall_forall. intros t Ht. rewrite forallb_forall in H. apply handlers_ok. exact (H t Ht).
Qed.
Definition no_disableb (os : list op) : bool := forallb (fun o => match o with ODisable => false | _ => true end) os.
Lemma no_disableb_ok : forall os, no_disableb os = true -> ~ In ODisable os.
Proof. intros os H Hi. unfold no_disableb in H. rewrite forallb_forall in H. specialize (H _ Hi). discriminate. Qed.

(** Durations [ds] spread over a session: [n] at a time before an execution, one before each
    of the first [k] steps of it *)
Fixpoint spread (fuel n k : nat) (ds : list Z) (s : st (Z -> Z)) : session_plan :=
  match fuel with
  | O => []
  | S fuel =>
      let os := map OReceive (firstn n ds) in
      let w := map (fun d => [OReceive d]) (firstn k (skipn n ds)) in
      match run toy os s with
      | Ok (_, s1, _) =>
          match preempted toy (executeP toy) w s1 with
          | Ok (o, s2, _) => (os, w) :: spread fuel n k (skipn (n + length (served o)) ds) s2
          | UB _ => []
          end
      | UB _ => []
      end
  end.
