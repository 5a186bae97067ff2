(** Interrupted executions for the examples of channel 1 *)
From Verif Require Import Prelude Address SpecCodec Datagram RxState Rx SpecRx SpecConf SpecBidi Toy CvWitness LogonWitness AsyncWitness
  Preempt SpecPreempt PreemptWitness SpecOffer SpecTell.

Definition cutouts (p : list Z) : list op := LogonWitness.track p ++ [OBiDi1; OBiDi2].

(** Assigned address 1000; while the datagrams are written, address 1234 *)
Definition torn_pair : list (list op) := repeat [] 6 ++ [cutouts (assign_to 0xC4 0xD2)].
Definition torn_plan : session_plan := [(assigned_1000, torn_pair); (cutouts go ++ cutouts go, [])].

Definition never (n : Z) (ms : list (moment (I := Z -> Z))) : bool :=
  forallb (fun m => match active (r_addrs (rxs (fst (fst m)))) with Some a => negb (aval a =? n) | None => true end) ms.
Lemma never_ok : forall n ms, never n ms = true -> Forall (fun m => option_map aval (active (r_addrs (rxs (fst (fst m))))) <> Some n) ms.
Proof.
  intros n ms H. apply Forall_forall. intros m Hm X. unfold never in H. rewrite forallb_forall in H. specialize (H m Hm). cbv beta in H.
  destruct (active _) as [a|]; [|discriminate]. cbn in X. injection X as X. rewrite X, Z.eqb_refl in H. discriminate.
Qed.
Definition orderlyb (t : list op * list (list op)) : bool := forallb not_execute (fst t) && forallb (forallb is_handler) (snd t).
Lemma orderly_ok : forall ts, forallb orderlyb ts = true -> Forall orderly ts.
Proof.
  intros ts H. apply Forall_forall. intros t Ht. rewrite forallb_forall in H. specialize (H t Ht). apply andb_prop in H. destruct H as [H1 H2].
  split; [|apply handlers_ok; exact H2]. apply Forall_forall. intros o Ho ->. rewrite forallb_forall in H1. discriminate (H1 _ Ho).
Qed.
Fixpoint quiet_inside (ts : session_plan) (outs : list outcome) (l : listener) : bool :=
  match ts, outs with
  | (os, _) :: ts', o :: outs' => no_logonb (served o) (listen_all os l) && quiet_inside ts' outs' (turn os o l)
  | _, _ => true
  end.
Lemma quiet_ok : forall ts outs l, quiet_inside ts outs l = true -> no_logon_inside ts outs l.
Proof.
  induction ts as [|[os w] ts IH]; intros [|o outs] l H; try exact Logic.I. cbn [quiet_inside] in H. apply andb_prop in H. destruct H as [H1 H2].
  split; [apply no_logonb_ok; exact H1|exact (IH _ _ H2)].
Qed.

Lemma torn_pair_told : exists (cvs : Z -> Z) ts outs s es hi lo h l, Forall orderly ts /\ session toy ts (st0 cvs) = Ok (outs, s, es) /\
  spoken1 (session_moments toy ts (st0 cvs)) = [hi; lo] /\ addresses_waiting s = [] /\
  make_data (decode_datagram hi) = Ok (256 * 1 + h) /\ make_data (decode_datagram lo) = Ok (256 * 2 + l) /\ reading_of h l = Loco 978 /\
  Forall (fun m => option_map aval (active (r_addrs (rxs (fst (fst m))))) <> Some 978) (session_moments toy ts (st0 cvs)) /\
  option_map aval (active (r_addrs (rxs s))) = Some 1234 /\
  map (fun x => option_map aval (active (r_addrs (rxs (fst x))))) (executions toy ts (st0 cvs)) = [Some 1000; Some 1234].
Proof.
  exists ready_made, torn_plan, (fst (fst (played torn_plan ready_made))), (snd (fst (played torn_plan ready_made))), (snd (played torn_plan ready_made)).
  exists [156; 165], [150; 184], 131, 210.
  split; [apply orderly_ok; vm_compute; reflexivity|]. split; [apply plays_ok; vm_compute; reflexivity|].
  split; [vm_compute; reflexivity|]. split; [vm_compute; reflexivity|]. split; [vm_compute; reflexivity|]. split; [vm_compute; reflexivity|].
  split; [vm_compute; reflexivity|]. split; [apply never_ok; vm_compute; reflexivity|]. split; vm_compute; reflexivity.
Qed.

(** A consist address is written by an execution that is interrupted by cutouts; later
    executions prepare the new address *)
Definition join5 : list Z := closed [3; 0x13; 5].
Definition chatty (p : list Z) : list (list op) :=
  [[]; [OBiDi1; OBiDi2]; []; []; []; []; [OBiDi1]; firstn 30 (LogonWitness.track p); skipn 30 (LogonWitness.track p) ++ [OBiDi1]; []; [OReceive 58]].
Definition told_plan : session_plan :=
  [([OInit; OEnable] ++ arriving [join5], chatty go); ([OReceive 58], chatty lamp); ([OReceive 58], chatty go); ([OReceive 58], [])].
