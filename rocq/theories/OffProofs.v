(** disable() while packets come in. *)
From Verif Require Import Prelude Address Instruction Checksum Datagram RxState Rx RxLogic Comm SpecCodec SpecRx RxBitProofs ExecProofs SpecModes ModesProofs
  SpecBidi BidiProofs Preempt SpecPreempt PreemptProofs PreemptProofs2 PreemptOff SpecOff.

Lemma flat_enable : forall (I : Type) (E : Env I) s, flat (pbind enableP (fun _ => Done false)) s = step E OEnable s.
Proof. intros I E s. unfold enableP, rd, wr, act. cbn [pbind flat step]. unfold enable, bind, gets, get, modify, ret. cbn. destruct (enabled_flag _); reflexivity. Qed.
Lemma flat_disable : forall (I : Type) (E : Env I) s, flat (pbind disableP (fun _ => Done false)) s = step E ODisable s.
Proof.
  intros I E [[[a b c d e f g] x1 x2 x3 x4 x5 x6 x7 x8] i ps]. unfold disableP, resetP, rd, wr, act. cbn [pbind flat step]. unfold disable, reset, bind, gets, get, modify, ret. cbn. destruct (enabled_flag _); reflexivity.
Qed.

Section Cutouts.
  Context {I : Type} (E : Env I).
  Implicit Types s : st I.

  Definition on_fsm (h : fsm -> fsm) (r : rx) : rx := set_r_fsm (h (r_fsm r)) r.
  Definition cutout (o : op) : bool := match o with OBiDi1 | OBiDi2 => true | _ => false end.

  (** The cutout handlers look at the packet only *)
  Lemma cutout_step : forall h o, (forall f, f_packet (h f) = f_packet f) -> cutout o = true ->
    comm (I := I) (on_fsm h) (fun _ => True) (step E o).
  Proof.
    intros h o Hh Ho.
    assert (G : forall B (k : rx -> M (I := I) B), (forall r, k (on_fsm h r) = k r) -> (forall r, comm (on_fsm h) (fun _ => True) (k r)) ->
      comm (on_fsm h) (fun _ => True) (bind get k)) by (intros B k H1 H2; apply comm_get; auto).
    assert (L : forall ch, comm (I := I) (on_fsm h) (fun _ => True) (appLogon E ch)) by (intro ch; comm_tac; exact Logic.I).
    destruct o; try discriminate Ho; cbn [step]; apply comm_bind; try (intros _; apply comm_ret).
    - comm_tac; exact Logic.I.
    - unfold biDiChannel2. apply G; [intro r; unfold on_fsm; cbn [r_fsm set_r_fsm r_addrs r_logon r_conf]; rewrite ?Hh; reflexivity|intro r].
      destruct (atyp _); try apply comm_ret; try apply L; try (comm_tac; exact Logic.I).
      all: destruct (addr_eqb _ _); [apply comm_bind; [apply comm_lift|intro i]|destruct (_ && _); [comm_tac; exact Logic.I|apply comm_ret]].
      all: assert (P : comm (I := I) (on_fsm h) (fun _ => True) (appPom E))
        by (unfold appPom; apply G; [intro; unfold on_fsm; cbn [r_fsm set_r_fsm r_addrs r_bidi r_cv r_conf]; rewrite ?Hh; reflexivity|intro; comm_tac; exact Logic.I]).
      all: destruct i; try exact P; comm_tac; exact Logic.I.
  Qed.
  Lemma cutout_run : forall h os, (forall f, f_packet (h f) = f_packet f) -> forallb cutout os = true ->
    comm (I := I) (on_fsm h) (fun _ => True) (run E os).
  Proof.
    intros h os Hh. induction os as [|o os IH]; intro H; [apply comm_ret|]. cbn [forallb] in H. apply andb_prop in H. destruct H as [H1 H2].
    cbn [run]. apply comm_bind; [exact (cutout_step h o Hh H1)|intros _; exact (IH H2)].
  Qed.
  Notation chg h s := (changed (on_fsm h) s).
  Lemma cutout_swap : forall h os s s' es, (forall f, f_packet (h f) = f_packet f) -> forallb cutout os = true ->
    run E os (chg h s) = Ok (tt, s', es) -> exists s1, run E os s = Ok (tt, s1, es) /\ s' = chg h s1.
  Proof.
    intros h os s s' es Hh Ho H. destruct (cutout_run h os Hh Ho s Logic.I) as [K _]. rewrite K in H. unfold after_change in H.
    destruct (run E os s) as [[[[] s1] e1]|]; [|discriminate]. injection H as <- <-. exists s1. auto.
  Qed.
  Lemma cutout_swap2 : forall h os s s1 es, (forall f, f_packet (h f) = f_packet f) -> forallb cutout os = true ->
    run E os s = Ok (tt, s1, es) -> run E os (chg h s) = Ok (tt, chg h s1, es).
  Proof. intros h os s s1 es Hh Ho H. destruct (cutout_run h os Hh Ho s Logic.I) as [K _]. rewrite K, H. reflexivity. Qed.
End Cutouts.

Section Serial.
  Context {I : Type} (E : Env I).
  Implicit Types s : st I.
  Notation chg h s := (changed (on_fsm h) s).

  Lemma bind_eq : forall A B (m n : M (I := I) A) (k h : A -> M B) s, m s = n s -> (forall a s', k a s' = h a s') -> bind m k s = bind n h s.
  Proof. intros A B m n k h s H1 H2. unfold bind. rewrite H1. destruct (n s) as [[[a s1] e1]|]; [|reflexivity]. rewrite H2. reflexivity. Qed.
  Lemma run_both : forall a b s, run E (a ++ b) s = bind (run E a) (fun _ => run E b) s.
  Proof.
    induction a as [|o a IH]; intros b s; [cbn [List.app run]; rewrite bind_ret; reflexivity|].
    cbn [List.app run]. rewrite bind_assoc. apply bind_eq; [reflexivity|]. intros _ s'. apply IH.
  Qed.

  (** What is left of an interrupted program when only its end and what it told count *)
  Definition quietly {A} (p : prog A) (w : list (list op)) : M (I := I) A := bind (preempted E p w) (fun o => ret (fst (fst o))).
  Lemma quietly_done : forall A (a : A) w s, quietly (Done a) w s = ret a s.
  Proof. reflexivity. Qed.
  Lemma quietly_act : forall A B m (k : B -> prog A) w s, quietly (Act B m k) w s = bind (run E (hd [] w)) (fun _ => bind m (fun b => quietly (k b) (tl w))) s.
  Proof.
    intros A B m k w s. unfold quietly. cbn [preempted]. rewrite bind_assoc. apply bind_eq; [reflexivity|]. intros _ s1.
    rewrite bind_assoc, bind_get. rewrite bind_assoc. apply bind_eq; [reflexivity|]. intros b s2.
    rewrite bind_assoc. apply bind_eq; [reflexivity|]. intros [[a sn] sv] s3. rewrite bind_ret. reflexivity.
  Qed.

  Definition no_checksum (f : fsm) : fsm := upd_f_checksum 0 f.
  Definition no_byte (f : fsm) : fsm := upd_f_byte 0 (no_checksum f).
  Definition no_count (f : fsm) : fsm := upd_f_bit_count 0 (no_byte f).

  (** Such a store passes the interrupts *)
  Definition passes (h : fsm -> fsm) (os : list op) s : Prop := run E os (chg h s) = after_change (on_fsm h) (run E os s).
  Lemma passes_app : forall h a b s, passes h a s -> (forall s' es, run E a s = Ok (tt, s', es) -> passes h b s') -> passes h (a ++ b) s.
  Proof.
    unfold passes. intros h a b s H1 H2. rewrite !run_both. unfold bind. rewrite H1. destruct (run E a s) as [[[[] s1] e1]|]; [|reflexivity].
    cbn [after_change]. rewrite (H2 _ _ eq_refl). destruct (run E b s1) as [[[[] s2] e2]|]; reflexivity.
  Qed.
  Lemma passes_cutouts : forall h os s, (forall f, f_packet (h f) = f_packet f) -> forallb cutout os = true -> passes h os s.
  Proof. intros h os s Hh Ho. exact (proj1 (cutout_run E h os Hh Ho s Logic.I)). Qed.

  (** A duration that is no half bit, or not the second half of a bit of a packet *)
  Definition innocent (t : Z) (f : fsm) : Prop :=
    half_bit t = None \/ f_state f = Preamble \/ f_state f = Startbit \/ f_is_halfbit f = false.
  Lemma passes_receive : forall h t s,
    h = no_checksum \/ h = no_byte \/ (h = no_count /\ (half_bit t = None \/ f_state (r_fsm (rxs s)) <> Preamble)) ->
    innocent t (r_fsm (rxs s)) -> passes h [OReceive t] s.
  Proof.
    intros h t s Hh Hi. unfold passes. cbn [run step]. unfold bind, ret.
    rewrite !receive_machine. unfold changed. cbn [rxs app pending]. destruct s as [[[ph bc by_ ck hb pk pe] dq cnt ad cf lg bd cv tm] i pd].
    unfold innocent in Hi. unfold full, with_fsm, with_rx, on_fsm, machine, machine_bit. 
    cbn [rxs r_fsm r_deque f_state f_is_halfbit set_r_fsm app pending] in *.
    destruct (half_bit t) as [bit|].
    2: { destruct Hh as [-> |[-> |[-> _]]]; reflexivity. }
    destruct ph.
    - destruct Hh as [-> |[-> |[-> [|]]]]; try congruence; cbn;
        destruct (length dq =? 31)%nat; try reflexivity; destruct bit; try reflexivity; destruct (bc <? 20)%nat eqn:Eb;
        cbn in Eb |- *; rewrite ?Eb; reflexivity.
    - destruct Hh as [-> |[-> |[-> _]]]; cbn; destruct (length dq =? 31)%nat; reflexivity.
    - destruct Hi as [|[|[|Hi]]]; try discriminate. subst hb. destruct Hh as [-> |[-> |[-> _]]]; reflexivity.
    - destruct Hi as [|[|[|Hi]]]; try discriminate. subst hb. destruct Hh as [-> |[-> |[-> _]]]; reflexivity.
  Qed.
  Lemma no_checksum_packet : forall f, f_packet (no_checksum f) = f_packet f. Proof. reflexivity. Qed.
  Lemma no_byte_packet : forall f, f_packet (no_byte f) = f_packet f. Proof. reflexivity. Qed.
  Lemma no_count_packet : forall f, f_packet (no_count f) = f_packet f. Proof. reflexivity. Qed.
End Serial.
