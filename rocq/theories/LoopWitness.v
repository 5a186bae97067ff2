(** A main loop all of whose calls are interrupted *)
From Verif Require Import Prelude Address SpecCodec Packets CodecProofs2 Checksum RxState Rx SpecRx SpecExec SpecConf SpecCv SpecLogon SpecBidi SpecSafe Toy CvWitness
  LogonWitness AsyncWitness SafeWitness Preempt SpecPreempt PreemptWitness SpecFirm FirmWitness PreemptLoop SpecLoop.

(** The application of [polite] that writes CVs at once and tells so later *)
Definition patient : Env (Z -> Z) :=
  Mk_env _ (e_readCv polite) (e_readCvByte polite) (e_readCvBit polite) (e_writeCv polite) (e_writeCvBit polite)
    (fun m e => (None, match e with EWriteCvAsync a b => put m a b | _ => m end)) (e_hook polite) (e_rand polite) (e_now polite)
    true true false false.
Lemma patient_short : short_cv1 patient.
Proof. exact polite_short. Qed.
Lemma patient_clock : clock patient (fun _ => 0).
Proof. unfold clock. cbn. repeat split; intros; lia. Qed.

Definition offered (t : task) : bool :=
  match t with TDatagram ds => forallb (fun a => match a with DynTemperature d => (-50 <=? d) && (d <=? 205) | DynKmh d => 0 <=? d | _ => false end) ds | _ => true end.
Lemma offered_ok : forall t, offered t = true -> task_by_rules t.
Proof.
  intros [| |ds|i v] H; try exact Logic.I. cbn [offered task_by_rules] in *. rewrite forallb_forall in H. apply Forall_forall. intros a Ha. specialize (H a Ha).
  destruct a; try discriminate; cbn [in_range]; lia.
Qed.
Fixpoint loop_ruled {I : Type} (E : Env I) (ps : list (list Z)) (ts : loop_plan) (s : st I) (l : listener) (due : bool) : bool :=
  match ts with
  | [] => true
  | (os, t, w) :: r =>
      turnb ps (os, w) l due && offered t &&
      match run E os s with
      | Ok (_, s1, _) => match preempted E (taskP E t) w s1 with
                         | Ok (o, s2, _) => loop_ruled E ps r s2 (round os t o l) (owes_all (SpecPreempt.served o) (listen_all os l) (owes_all os l due))
                         | UB _ => true
                         end
      | UB _ => true
      end
  end.
Lemma loop_ruled_ok : forall I (E : Env I) (sent : list Z -> Prop) ps, Forall sent ps -> forall ts1 t ts2 s l due outs s' es, loop_ruled E ps (ts1 ++ t :: ts2) s l due = true ->
  mainloop E ts1 s = Ok (outs, s', es) -> round_by_rules sent t (loop_listened ts1 outs l) (loop_due ts1 outs l due).
Proof.
  intros I E sent ps H. induction ts1 as [|[[os t0] w] ts1 IH]; intros t ts2 s l due outs s' es Hr Hs.
  - cbn [mainloop] in Hs. unfold ret in Hs. injection Hs as <- _ _. cbn [List.app] in Hr. destruct t as [[os t] w]. cbn [loop_ruled] in Hr. apply andb_prop in Hr.
    destruct Hr as [Hr _]. apply andb_prop in Hr. destruct Hr as [H1 H2]. destruct (turnb_ok _ _ H _ _ _ H1) as (K1 & K2 & K3).
    split; [exact K1|]. split; [exact (offered_ok _ H2)|]. split; [exact K2|exact K3].
  - cbn [List.app loop_ruled] in Hr. apply andb_prop in Hr. destruct Hr as [_ Hr]. cbn [mainloop] in Hs. unfold bind in Hs.
    destruct (run E os s) as [[[u s1] e1]|]; [|discriminate]. destruct (preempted E (taskP E t0) w s1) as [[[o s2] e2]|]; [|discriminate].
    destruct (mainloop E ts1 s2) as [[[outs2 s3] e3]|] eqn:E3; [|discriminate]. unfold ret in Hs. injection Hs as <- _ _.
    exact (IH _ _ _ _ _ _ _ _ Hr E3).
Qed.
Lemma loop_is_ruled : forall I (E : Env I) (sent : list Z -> Prop) ps ts i, Forall sent ps -> loop_ruled E ps ts (st0 i) listener0 false = true -> loop_by_rules E sent ts i.
Proof. intros I E sent ps ts i H Hr ts1 t ts2 outs s es -> Hs. exact (loop_ruled_ok _ _ _ _ H _ _ _ _ _ _ _ _ _ Hr Hs). Qed.

(** init() is interrupted by the first packet, three executions and datagram() by the next
    ones and a logon packet, the callback by the packet that fetches its answer *)
Definition at_work (p : list Z) : list (list op) :=
  [[]; [OBiDi1]; firstn 30 (LogonWitness.track p); []; [OBiDi1]; skipn 30 (LogonWitness.track p); [OBiDi1]; [OBiDi2]; [OReceive 58]; []; [OReceive 58]].
Definition busy_plan : loop_plan :=
  [([OEnable], TInit, at_work (frame 3 [0x3F; 0x90]));
   ([OReceive 58], TExecute, over (frame 3 [0xEC; 2; 7]));
   ([OReceive 58], TExecute, over (frame 3 [0xEC; 2; 7]));
   ([OReceive 58], TDatagram [DynTemperature 40; DynKmh 80], [[]; []; LogonWitness.track (closed [254; 252 + 0; 1; 2; 5]); [OBiDi1; OBiDi2]; [OReceive 58]]);
   ([OReceive 58], TExecute, over make_idle_packet);
   ([OReceive 58], TExecute, over (frame 3 [0x3F; 0x90]));
   ([OReceive 58], TCallback 0 7, [[]; []; LogonWitness.track (frame 3 [0xEC; 2; 7]) ++ [OBiDi1]]);
   ([OBiDi2; OReceive 58], TExecute, []); ([OReceive 58], TExecute, []); ([], TExecute, []); ([], TExecute, [])].
Definition busy_loop : res (list outcome * st (Z -> Z) * list event) := mainloop patient busy_plan (st0 joining).
Lemma busy_ruled : loop_by_rules patient generated busy_plan joining.
Proof. apply (loop_is_ruled _ _ _ day_packets); [exact day_generated|vm_compute; reflexivity]. Qed.

(** datagram() interrupted by a packet and its cutout *)
Definition with_a_cutout : list (list op) := repeat [] 8 ++ [LogonWitness.track (frame 3 [0x3F; 0x90]) ++ [OBiDi1; OBiDi2]].
Definition offering : task := TDatagram [DynTemperature 40; DynKmh 80; DynTemperature 41].
