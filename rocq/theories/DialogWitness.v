(** Conversations in channel 2, concretely *)
From Verif Require Import Prelude Address SpecCodec Datagram RxState Rx RxLogic SpecRx SpecExec SpecConf SpecCv SpecLogon SpecBidi Toy SpecStation SpecLayout
  LayoutWitness CvWitness BidiWitness StationWitness SpecDialog.

(** Durations of a packet; the last one completes it *)
Definition tones (p : list Z) : list op := map OReceive (half_bits 58 100 (track_bits 14 p)).
(** ... with its cutout and execution *)
Definition served (p : list Z) : list op := tones p ++ [OBiDi1; OBiDi2; OReceive 58; OExecute].

(** [on_time] can be computed *)
Fixpoint on_time_b (os : list op) (l : listener) : bool :=
  match os with
  | [] => true
  | o :: r => match o with OBiDi2 => l_fresh l | ODatagram _ => false | _ => true end && on_time_b r (listen o l)
  end.
Lemma on_time_from : forall os l, on_time_b os l = true -> forall os1 o os2, os = os1 ++ o :: os2 ->
  match o with OBiDi2 => l_fresh (listen_all os1 l) = true | ODatagram ds => Forall in_range ds | _ => True end.
Proof.
  induction os as [|x os IH]; intros l H os1 o os2 Eo; [destruct os1; discriminate|]. cbn [on_time_b] in H. apply andb_prop in H. destruct H as [H1 H2].
  destruct os1 as [|y os1]; cbn [List.app] in Eo; injection Eo as -> Eo.
  - destruct o; try exact Logic.I; [discriminate|exact H1].
  - exact (IH _ H2 os1 o os2 Eo).
Qed.
Lemma on_time_spec : forall os, on_time_b os listener0 = true -> on_time os.
Proof. intros os H os1 o os2. exact (on_time_from os listener0 H os1 o os2). Qed.

(** Accesses are in range *)
Ltac accesses_allowed :=
  match goal with |- Forall _ ?x => let y := eval vm_compute in x in replace x with y by (vm_compute; reflexivity) end;
  repeat (apply Forall_cons; [cbn [allowed]; first [exact Logic.I|intros; unfold all_cvs; cbn [target]; lia]|]); apply Forall_nil.

(** CV3 is 77 *)
Definition owned : Z -> Z := put factory 2 77.
Definition known (a : Z) : Z := u8 (owned a).
Definition read3 : list Z := frame 3 [0xE4; 2; 0].

(** The number of the consist comes instead of CV3 *)
Lemma wrong_answer : exists s es, let os := served read3 ++ served (frame 3 [0x12; 5]) ++ tones read3 in
  run toy (OInit :: os) (st0 owned) = Ok (tt, s, es) /\ logons os listener0 = [] /\ on_time os /\
  Forall (allowed all_cvs) (snd (obey_all false (SpecRx.taken os listener0) (new_view known))) /\
  l_fresh (listen_all os listener0) = true /\ last_heard os listener0 None = Some read3 /\
  own_cv_packet (fun a => u8 (app s a)) read3 = true /\ asks read3 = [Check 2 0] /\ u8 (app s 2) = 77 /\
  exists s' d, biDiChannel2 toy s = Ok (tt, s', [ETransmitBiDi d]) /\ make_data (decode_datagram d) = Ok 5.
Proof.
  do 2 eexists. cbv zeta. split; [vm_compute; reflexivity|]. split; [vm_compute; reflexivity|].
  split; [apply on_time_spec; vm_compute; reflexivity|]. split; [accesses_allowed|]. do 5 (split; [vm_compute; reflexivity|]).
  do 2 eexists. split; [vm_compute; reflexivity|]. vm_compute. reflexivity.
Qed.
