(** Interrupted sessions that keep to the rules *)
From Verif Require Import Prelude Address SpecCodec Packets CodecProofs2 Checksum RxState Rx SpecRx SpecExec SpecConf SpecCv SpecLogon SpecBidi SpecSafe Toy CvWitness
  LogonWitness AsyncWitness SafeWitness Preempt SpecPreempt PreemptWitness SpecFirm.

Definition frame_fits (l : listener) (t : Z) : bool :=
  match half_bit t with Some b => (length (frame_so_far (l_heard l ++ [b])) <=? 18)%nat | None => true end.
Definition allowedb (ok : list Z -> bool) (o : op) (l : listener) (due : bool) : bool :=
  match o with
  | OReceive t => frame_fits l t && match completed o l with Some p => ok p | None => true end && negb due
  | OBiDi2 => l_fresh l
  | ODatagram _ => false
  | _ => true
  end.
Fixpoint by_rulesb (ok : list Z -> bool) (os : list op) (l : listener) (due : bool) : bool :=
  match os with [] => true | o :: r => allowedb ok o l due && by_rulesb ok r (listen o l) (owes o l due) end.
Lemma by_rulesb_ok : forall ok (sent : list Z -> Prop), (forall p, ok p = true -> sent p) -> forall os l due, by_rulesb ok os l due = true -> by_rules sent os l due.
Proof.
  intros ok sent Hok. induction os as [|o os IH]; intros l due H; [exact Logic.I|]. cbn [by_rulesb] in H. apply andb_prop in H. destruct H as [H1 H2].
  split; [|exact (IH _ _ H2)]. clear IH H2. destruct o; try exact Logic.I; cbn [allowedb] in H1; [|discriminate|exact H1].
  apply andb_prop in H1. destruct H1 as [H1 H3]. apply andb_prop in H1. destruct H1 as [H1 H2]. split; [|split].
  - unfold frame_fits in H1. destruct (half_bit _); [apply Nat.leb_le; exact H1|exact Logic.I].
  - intros p Hp. rewrite Hp in H2. exact (Hok _ H2).
  - destruct due; [discriminate|reflexivity].
Qed.
Definition turnb (ps : list (list Z)) (t : list op * list (list op)) (l : listener) (due : bool) : bool :=
  by_rulesb (among ps) (fst t) l due && forallb (forallb is_handler) (snd t) &&
  by_rulesb (among ps) (concat (snd t)) (listen_all (fst t) l) (owes_all (fst t) l due).
Lemma among_ok : forall (sent : list Z -> Prop) ps, Forall sent ps -> forall p, among ps p = true -> sent p.
Proof. intros sent ps H p Hp. unfold among in Hp. destruct (in_dec _ p ps) as [Hi|]; [|discriminate]. exact (proj1 (Forall_forall _ _) H p Hi). Qed.
Lemma turnb_ok : forall (sent : list Z -> Prop) ps, Forall sent ps -> forall t l due, turnb ps t l due = true -> turn_by_rules sent t l due.
Proof.
  intros sent ps H [os w] l due Ht. unfold turnb in Ht. cbn [fst snd] in Ht. apply andb_prop in Ht. destruct Ht as [Ht H3]. apply andb_prop in Ht. destruct Ht as [H1 H2].
  split; [exact (by_rulesb_ok _ _ (among_ok _ _ H) _ _ _ H1)|]. split; [exact (handlers_ok _ H2)|].
  exact (by_rulesb_ok _ _ (among_ok _ _ H) _ _ _ H3).
Qed.
Fixpoint ruled (ps : list (list Z)) (ts : session_plan) (s : st (Z -> Z)) (l : listener) (due : bool) : bool :=
  match ts with
  | [] => true
  | (os, w) :: r =>
      turnb ps (os, w) l due &&
      match run polite os s with
      | Ok (_, s1, _) => match preempted polite (executeP polite) w s1 with
                         | Ok (o, s2, _) => ruled ps r s2 (turn os o l) (owes_all (SpecPreempt.served o) (listen_all os l) (owes_all os l due))
                         | UB _ => true
                         end
      | UB _ => true
      end
  end.
Lemma ruled_ok : forall (sent : list Z -> Prop) ps, Forall sent ps -> forall ts1 t ts2 s l due outs s' es, ruled ps (ts1 ++ t :: ts2) s l due = true ->
  session polite ts1 s = Ok (outs, s', es) -> turn_by_rules sent t (all_listened ts1 outs l) (all_due ts1 outs l due).
Proof.
  intros sent ps H. induction ts1 as [|[os w] ts1 IH]; intros t ts2 s l due outs s' es Hr Hs.
  - cbn [session] in Hs. unfold ret in Hs. injection Hs as <- _ _. cbn [List.app] in Hr. destruct t as [os w]. cbn [ruled] in Hr. apply andb_prop in Hr.
    exact (turnb_ok _ _ H _ _ _ (proj1 Hr)).
  - cbn [List.app ruled] in Hr. apply andb_prop in Hr. destruct Hr as [_ Hr]. cbn [session] in Hs. unfold bind in Hs.
    destruct (run polite os s) as [[[u s1] e1]|]; [|discriminate]. destruct (preempted polite (executeP polite) w s1) as [[[o s2] e2]|]; [|discriminate].
    destruct (session polite ts1 s2) as [[[outs2 s3] e3]|] eqn:E3; [|discriminate]. unfold ret in Hs. injection Hs as <- _ _.
    exact (IH _ _ _ _ _ _ _ _ Hr E3).
Qed.
Lemma session_ruled : forall (sent : list Z -> Prop) ps ts i, Forall sent ps -> ruled ps ts (st0 i) listener0 false = true -> session_by_rules polite sent ts i.
Proof. intros sent ps ts i H Hr ts1 t ts2 outs s es -> Hs. exact (ruled_ok _ _ H _ _ _ _ _ _ _ _ _ Hr Hs). Qed.

(** Each execution is interrupted by a cutout and then by the next packet of [day_packets], in
    two pieces, and its cutout; the third by a logon packet *)
Definition over (p : list Z) : list (list op) :=
  [[]; []; [OBiDi1]; firstn 30 (LogonWitness.track p); []; [OBiDi1]; skipn 30 (LogonWitness.track p); [OBiDi1]; []; [OBiDi2]; []; [OReceive 58]; [OReceive 58]].
Definition firm_plan : session_plan :=
  [([OInit; OEnable] ++ LogonWitness.track (frame 3 [0x3F; 0x90]) ++ [OBiDi1; OBiDi2; OReceive 58], over (frame 3 [0xEC; 2; 7]));
   ([OReceive 58], over (frame 3 [0xEC; 2; 7])); ([OReceive 58], over (closed [254; 252 + 0; 1; 2; 5]));
   (LogonWitness.track (frame 1530 [0x3F; 0x90]) ++ [OBiDi1; OBiDi2; OReceive 58], over make_idle_packet);
   ([OReceive 58], over make_reset_packet); ([OReceive 58], []); ([], []); ([], [])].
(** Logon is enabled *)
Definition joining : Z -> Z := put factory 27 0x83.
Definition polite_session : res (list outcome * st (Z -> Z) * list event) := session polite firm_plan (st0 joining).
Definition found_second : st (Z -> Z) :=
  match run polite ([OInit; OEnable] ++ LogonWitness.track (frame 3 [0xEC; 2; 7]) ++ [OReceive 58]) (st0 factory) with
  | Ok (_, s1, _) => match preempted polite (executeP polite) (over (frame 3 [0xEC; 2; 7])) s1 with
                     | Ok (_, s2, _) => s2
                     | UB _ => st0 factory
                     end
  | UB _ => st0 factory
  end.
Lemma firm_ruled : session_by_rules polite generated firm_plan joining.
Proof. apply (session_ruled _ day_packets); [exact day_generated|vm_compute; reflexivity]. Qed.
