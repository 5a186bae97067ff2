(** Enabling and disabling, special operating modes *)
From Verif Require Import Prelude Address Instruction Checksum Datagram Speed Packets Backoff RxState Rx ZBits RxLogic Comm
  SpecCodec CodecProofs CodecProofs2 SpecRx SpecExec ExecProofs SpecConf ConfProofs SpecCv CvProofs CvProofs2 SpecModes.

Section Flag.
  Context {I : Type} (E : Env I) (b : bool).
  Implicit Types s : st I.
  Notation free m := (comm (I := I) (set_enabled_flag b) (fun _ => True) m).

  Lemma free_dyn_all : forall ds, free (@dyn_all I ds).
  Proof. induction ds as [|d ds IH]; [apply comm_ret|]. apply comm_bind; [comm_tac; exact Logic.I|intros _; exact IH]. Qed.
  Lemma free_callback : forall c v, free (run_cb E c v).
  Proof. intros. comm_tac; exact Logic.I. Qed.
  Lemma free_step : forall o, is_switch o = false -> free (step E o).
  Proof.
    intros o Ho. destruct o; try discriminate Ho; cbn [step].
    - comm_tac; exact Logic.I.
    - comm_tac; exact Logic.I.
    - comm_tac; exact Logic.I.
    - apply comm_bind; [|intros _; apply comm_ret]. unfold datagram. apply comm_get; [reflexivity|intros r _].
      apply comm_bind; [comm_tac; exact Logic.I|intros _]. apply comm_get; [reflexivity|intros r' _].
      destruct (block_dyn _); [apply comm_ret|apply free_dyn_all].
    - comm_tac; exact Logic.I.
    - comm_tac; exact Logic.I.
    - intros s _. cbn [pending changed]. destruct (nth_error (pending s) i) as [c|]; [|split; [reflexivity|trivial]].
      refine (comm_bind _ _ _ _ _ _ (free_callback c v) _ s Logic.I). intros u. apply comm_ret.
  Qed.
  Lemma free_run : forall os, existsb is_switch os = false -> free (run E os).
  Proof.
    induction os as [|o os IH]; intros H; [apply comm_ret|]. cbn [existsb] in H. apply orb_false_elim in H. destruct H as [H1 H2].
    cbn [run]. apply comm_bind; [apply free_step; exact H1|intros _; exact (IH H2)].
  Qed.
End Flag.

Lemma switched_changed : forall I b (s : st I), switched b s = changed (set_enabled_flag b) s.
Proof. reflexivity. Qed.

Theorem flag_ignored : forall (I : Type) (E : Env I) os b s, existsb is_switch os = false ->
  run E os (switched b s) =
  match run E os s with Ok (u, s', es) => Ok (u, switched b s', es) | UB r => UB r end.
Proof.
  intros I E os b s H. rewrite switched_changed. destruct (free_run E b os H s Logic.I) as [K _]. rewrite K.
  unfold after_change. destruct (run E os s) as [[[u s'] es]|r]; reflexivity.
Qed.

Theorem disable_effect : forall (I : Type) (E : Env I) s, exists s', step E ODisable s = Ok (false, s', []) /\
  is_on s' = false /\ beside_reception s' = beside_reception s /\ last_packet s' = last_packet s /\
  (is_on s = true -> idle_receiver s') /\ (is_on s = false -> s' = s).
Proof.
  intros I E s. cbn [step]. unfold disable, is_on. rewrite bind_assoc, bind_get.
  destruct (enabled_flag (r_cv (rxs s))) eqn:Ef; cbn [negb].
  - eexists. split; [reflexivity|]. split; [reflexivity|]. split; [reflexivity|]. split; [reflexivity|]. split; [reflexivity|discriminate].
  - eexists. split; [reflexivity|]. split; [exact Ef|]. split; [reflexivity|]. split; [reflexivity|]. split; [discriminate|reflexivity].
Qed.

Theorem enable_effect : forall (I : Type) (E : Env I) s, exists s', step E OEnable s = Ok (false, s', []) /\
  is_on s' = true /\ beside_reception s' = beside_reception s /\ r_fsm (rxs s') = r_fsm (rxs s).
Proof.
  intros I E s. cbn [step]. unfold enable, is_on. rewrite bind_assoc, bind_get.
  destruct (enabled_flag (r_cv (rxs s))) eqn:Ef.
  - eexists. split; [reflexivity|]. split; [exact Ef|]. split; reflexivity.
  - eexists. split; [reflexivity|]. split; [reflexivity|]. split; reflexivity.
Qed.

Section Modes.
  Context {I : Type} (E : Env I).
  Implicit Types s : st I.

  Definition with_man (v : bool) s : st I := Mk_st (set_man_flag v (rxs s)) (app s) (pending s).

  Lemma bit_testbit : forall b k, 0 <= k -> bit_of b k = Z.testbit b k.
  Proof. intros b k Hk. unfold bit_of. rewrite Z.testbit_odd, Z.shiftr_div_pow2 by exact Hk. reflexivity. Qed.

  Lemma special_dispatch : forall s n b t, byte b -> 
    dispatch E n (0x3E :: b :: t) s =
    Ok (tt, (if e_east_west E then bump E (with_man (bit_of b 7) s) (EEastWest n (Some (bit_of b 6))) else with_man (bit_of b 7) s),
        if e_east_west E then [EEastWest n (Some (bit_of b 6))] else []).
  Proof.
    intros s n b t Hb. unfold dispatch. rewrite decode_instruction_spec by (unfold byte; lia). rewrite ExecProofs.bind_lift.
    change (nibble_class (0x3E / 16)) with IAdvancedOperations. cbn iota.
    unfold advancedOperations. cbn [at_ nth_error]. rewrite bind_ret. cbn [Z.eqb Pos.eqb]. rewrite bind_ret, bind_modify.
    rewrite !bit_testbit by lia. unfold when. destruct (e_east_west E); [destruct (Z.testbit b 6); reflexivity|reflexivity].
  Qed.

  Theorem special_mode : forall s p q n b t, reached E s -> ready s p q -> in_service s = false ->
    for_locos p -> acts_as (r_addrs (rxs s)) p n -> body_of p = 0x3E :: b :: t ->
    exists s' e1, execute E s = Ok (true, s', e1 ++ if e_east_west E then [EEastWest n (Some (bit_of b 6))] else []) /\
      storing s e1 /\ man_flag (r_cv (rxs s')) = bit_of b 7 /\ but_man s' = but_man s /\ r_deque (rxs s') = q.
  Proof.
    intros s p q n b t HR Hr Hm Hf Ha Hi. destruct (reached_ready _ _ _ _ HR Hr) as [Hb Hl].
    destruct (own_command E s p q n Hr Hm Hb Hl Hf Ha) as (s1 & e1 & Hk & Hp & Hs & He).
    assert (Hbb : byte b). { pose proof (body_bytes p Hb) as K. rewrite Hi in K. inversion K as [|? ? _ K2]. inversion K2; assumption. }
    rewrite Hi, special_dispatch in He by exact Hbb. eexists. exists e1. split; [exact He|]. split; [exact Hs|].
    unfold hk in Hk. unfold but_man, pop. destruct (e_east_west E); cbn; (split; [reflexivity|]); (split; [|reflexivity]); rewrite Hp;
      (assert (r_cv (rxs s1) = r_cv (rxs s)) as -> by congruence); congruence.
  Qed.

  (** Seen from the specification *)
  Theorem special_mode_told : forall s p q n b t, reached E s -> ready s p q -> in_service s = false -> e_east_west E = true ->
    for_locos p -> acts_as (r_addrs (rxs s)) p n -> body_of p = 0x3E :: b :: t -> heading b <> None ->
    exists s' e1, execute E s = Ok (true, s', e1 ++ [EEastWest n (heading b)]) /\ storing s e1.
  Proof.
    intros s p q n b t HR Hr Hm Hw Hf Ha Hi Hh. destruct (special_mode s p q n b t HR Hr Hm Hf Ha Hi) as (s' & e1 & H1 & H2 & _).
    rewrite Hw in H1. exists s', e1. split; [|exact H2]. rewrite H1. unfold heading in *.
    destruct (bit_of b 6); [reflexivity|]. destruct (bit_of b 5); [reflexivity|]. contradiction.
  Qed.
End Modes.
