(** A decoder without automatic logon, for the examples *)
From Verif Require Import Prelude Address SpecCodec RxState Rx SpecRx SpecConf SpecCv SpecLayout Toy CvWitness LogonWitness AsyncWitness LayoutWitness
  Preempt SpecPreempt PreemptWitness SpecTorn TornWitness PreemptLoop SpecLoop LoopWitness SpecWhole WholeWitness SpecNoLogon.

(** An application whose CV28 cannot be written and always reads as 3 *)
Definition fixed (c : Z -> Z) : Z -> Z := put c 27 3.
Definition plain : Env (Z -> Z) :=
  Mk_env _
    (fun m a => (fixed m a, m))
    (fun m a b => (fixed m a, m))
    (fun m a v p => (Z.testbit (fixed m a) p, m))
    (fun m a b => if a =? 27 then (3, m) else (b, put m a b))
    (fun m a v p => if a =? 27 then (Z.testbit 3 p, m) else (v, put m a (if v then Z.setbit (m a) p else Z.clearbit (m a) p)))
    (fun m e => (None, m))
    (fun m e => m)
    (fun m => (3, m))
    (fun m => (0, m))
    false false false false.
Definition but_28 (x : access) : Prop := 0 <= target x < 1024 /\ target x <> 27.

Lemma plain_never : never_logs_on plain.
Proof. intros i. reflexivity. Qed.

Lemma plain_keeps : keeps_cvs but_28 plain (fun c a => u8 (fixed c a)).
Proof.
  destruct toy_keeps as (TM & TW & TB).
  assert (Hne : forall c a, a <> 27 -> fixed c a = c a).
  { intros c a Ha. unfold fixed, put. rewrite (proj2 (Z.eqb_neq _ _) Ha). reflexivity. }
  assert (Hp : forall c a v x, x <> a -> fixed (put c a v) x = fixed c x).
  { intros c a v x Hx. unfold fixed, put. rewrite (proj2 (Z.eqb_neq _ _) Hx). reflexivity. }
  split; [|split].
  - constructor; cbn [plain e_readCv e_readCvByte e_readCvBit e_writeCv e_writeCvBit e_hook e_rand e_now fst snd];
      try (intros; split; reflexivity); try reflexivity.
    + intros i a. unfold byte, u8. apply Z.mod_pos_bound. reflexivity.
    + intros i a b k Hk. exact (mem_readBit _ _ TM (fixed i) a b k Hk).
    + intros i a b. destruct (Z.eqb_spec a 27) as [->|Ha]; cbn [fst snd]; [split; reflexivity|].
      split; [rewrite (Hne _ _ Ha); exact (proj1 (mem_write _ _ TM i a b))|]. intros x Hx. rewrite (Hp _ _ _ _ Hx). reflexivity.
    + intros i a b k Hk. destruct (Z.eqb_spec a 27) as [->|Ha]; cbn [fst snd].
      * split; [exact (proj1 (mem_readBit _ _ TM (fixed i) 27 b k Hk))|reflexivity].
      * split; [rewrite (Hne _ _ Ha); exact (proj1 (mem_writeBit _ _ TM i a b k Hk))|]. intros x Hx. rewrite (Hp _ _ _ _ Hx). reflexivity.
  - intros i a v [H1 H2] Hv. cbn [target] in H1, H2. cbn [plain e_writeCv]. rewrite (proj2 (Z.eqb_neq _ _) H2). cbn [snd].
    rewrite (Hne _ _ H2). exact (TW i a v H1 Hv).
  - intros i a b k [H1 H2] Hk. cbn [target] in H1, H2. cbn [plain e_writeCvBit]. rewrite (proj2 (Z.eqb_neq _ _) H2). cbn [snd].
    rewrite !(Hne _ _ H2). exact (TB i a b k H1 Hk).
Qed.

(** The station looks for decoders to log on (ENABLE, SELECT, ASSIGN) while the calls of the main loop run *)
Definition logon_loop : loop_plan :=
  [([OEnable], TInit, pieces enable_5); (arriving [join; join], TExecute, pieces (select_1234 0x91));
   ([], TExecute, pieces (assign_to 0xC0 7)); ([], TDatagram [DynTemperature 40], pieces ride); ([], TInit, pieces enable_6);
   (arriving [assign_to 0xC0 7], TExecute, [[]; [OBiDi1]]); ([], TExecute, [[]; [OBiDi1]])].
(** Logon packets completed in a main loop *)
Fixpoint loop_logons (ts : loop_plan) (outs : list outcome) (l : listener) : list (list Z) :=
  match ts, outs with
  | (os, t, _) :: ts', o :: outs' => logons os l ++ logons (served o) (listen_all os l) ++ loop_logons ts' outs' (round os t o l)
  | _, _ => []
  end.

(** The same packets in a decoder with automatic logon *)
Lemma logon_disturbs : exists outs s es,
  let x := obey_all false [join; join; ride] (new_view (fun a => u8 (ready_made a))) in
  ~ never_logs_on toy /\ keeps_cvs all_cvs toy (fun c a => u8 (c a)) /\ mainloop toy logon_loop (st0 ready_made) = Ok (outs, s, es) /\
  loop_executed logon_loop outs listener0 = [join; join; ride] /\ Forall (allowed all_cvs) (snd x) /\
  seen_in es <> snd x /\ app s 18 = 0 /\ v_cvs (fst x) 18 = 5 /\ app s 65300 = 7.
Proof.
  do 3 eexists. cbv zeta. split; [intros H; specialize (H ready_made); vm_compute in H; discriminate|]. split; [exact toy_keeps|].
  split; [vm_compute; reflexivity|]. split; [vm_compute; reflexivity|].
  match goal with |- Forall _ ?a /\ _ => assert (H : a = [Access (Store 18 5); Told (EDirection 5 true); Told (ESpeed 5 30)]) by (vm_compute; reflexivity) end.
  split; [rewrite H; repeat (apply Forall_cons; [unfold all_cvs; cbn; try exact Logic.I; lia|]); apply Forall_nil|].
  split; [rewrite H; vm_compute; discriminate|]. split; [vm_compute; reflexivity|]. split; vm_compute; reflexivity.
Qed.
