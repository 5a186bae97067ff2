(** The state of a decoder between calls that keep to the rules. *)
From Verif Require Import Prelude Address Instruction Checksum Datagram RxState Rx ZBits RxLogic RxInv SpecCodec SpecRx RxBitProofs RxBitProofs2 RxBitProofs3 RxBitProofs4
  SpecExec ExecProofs SpecConf SpecCv CvProofs2 SaneProofs SpecLogon LogonProofs LogonProofs2 LogonProofs3 LogonProofs4
  SpecBidi BidiProofs BidiProofs2 BidiProofs3 BidiProofs4 BidiProofs6 BidiProofs8 BidiProofs9 OfferProofs SpecSafe SafeProofs SafeProofs2 Preempt SpecPreempt SpecFirm FirmProofs.

(** A packet that may wait *)
Definition whole (p : list Z) : Prop := complete p /\ Forall byte p /\ (3 <= length p)%nat.

Section World.
  Context {I : Type} (E : Env I) (HE : short_cv1 E) (time : I -> Z) (HC : clock E time).
  Implicit Types s : st I.

  Record world (l : listener) (due : bool) s : Prop := {
    w_listen : Rl l s;
    w_sane : sane (rxs s);
    w_order : ordered time s;
    w_talk : talk (rxs s);
    w_fair : fair (rxs s);
    w_owing : owing due s;
    w_held : held (rxs s);
    w_queue : Forall whole (l_queue l)
  }.

  Lemma talk_stocked : forall r, talk r -> stocked r.
  Proof. intros r H. open_talk H. split; [assumption|]. split; [assumption|lia]. Qed.

  (** What completes a packet is one of SpecRx *)
  Lemma completed_bytes : forall l s t p, Rl l s -> completed (OReceive t) l = Some p -> Forall byte p /\ (3 <= length p)%nat.
  Proof.
    intros l s t p HR Hc. destruct (is_logon p) eqn:El.
    - destruct (logon_takes E l s t p HR Hc El) as (A & B & _). auto.
    - destruct (receive_ordinary E l s t p HR Hc El) as (A & B & _). auto.
  Qed.
  Lemma queue_whole : forall o l s due, Rl l s -> allowed complete o l due -> Forall whole (l_queue l) -> Forall whole (l_queue (listen o l)).
  Proof.
    intros o l s due HR Ha Hq.
    assert (T : Forall whole (tl (l_queue l))) by (destruct Hq; [constructor|assumption]).
    assert (C : forall t, o = OReceive t -> forall p, completed o l = Some p -> whole p).
    { intros t -> p Hp. destruct Ha as (_ & Ha & _). destruct (completed_bytes l s t p HR Hp). split; [exact (Ha p Hp)|split; assumption]. }
    destruct o as [| | |t| |ds| | |j v]; cbn [listen]; try exact Hq.
    - destruct (l_on l); exact Hq.
    - specialize (C t eq_refl). cbn [completed] in C. destruct (half_bit t) as [b|]; [|exact Hq]. unfold hear.
      destruct (looked_at _ && _); [exact Hq|]. destruct (reading _) as [| |bs]; try exact Hq. destruct (valid_packet bs); [|exact Hq].
      cbn [l_queue]. destruct (is_logon bs); [exact Hq|]. apply Forall_app. split; [exact Hq|]. constructor; [|constructor]. apply C. reflexivity.
    - destruct (l_fresh l); [exact Hq|exact T].
  Qed.

  Lemma execute_world : forall l s due, world l due s -> exists b s' es, execute E s = Ok (b, s', es).
  Proof.
    intros l s due [HR Hs Ho _ _ _ _ Hq].
    destruct (f_packet_end (r_fsm (rxs s))) eqn:Ef; [unfold execute; rewrite bind_get, Ef; do 3 eexists; reflexivity|].
    destruct (r_deque (rxs s)) as [|p q] eqn:Eq; [unfold execute; rewrite bind_get, Ef, Eq; do 3 eexists; reflexivity|].
    assert (Hy : ready s p q) by (split; assumption).
    assert (Hw : whole p) by (destruct HR as (_ & HR & _); rewrite <- HR, Eq in Hq; inversion Hq; assumption).
    destruct Hw as (Hc & Hb & H3).
    destruct (execute_outcome E HE time HC s p q (conj Hs Ho) Hy Hb H3) as [(_ & K)|(n & k & (Hob & Hf & _) & _ & K)]; [exact K|].
    unfold complete in Hc. destruct (is_logon p) eqn:El.
    { exfalso. destruct (is_logon_254 p El) as (_ & _ & Ha). unfold for_locos in Hf. rewrite Ha in Hf. cbn in Hf. intuition discriminate. }
    rewrite (proj2 (Nat.leb_le _ _) (Hc Hf k (is_member s n))) in K. destruct K as (s' & es' & K). eauto.
  Qed.

  Lemma owing_view : forall due s s', logon_view (rxs s') = logon_view (rxs s) -> owing due s -> owing due s'.
  Proof.
    intros due s s' H (H1 & H2). unfold logon_view in H. injection H as Ha Hb. unfold owing, logon_answers in *. rewrite Ha, Hb. auto.
  Qed.
  Lemma held_ear : forall r r', r_fsm r' = r_fsm r -> held r -> held r'.
  Proof. intros r r' H. unfold held. rewrite H. auto. Qed.

  Lemma biDi2_owing : forall due s u s' es, owing due s -> biDiChannel2 E s = Ok (u, s', es) -> owing false s'.
  Proof.
    intros due s u s' es (O1 & O2) H. destruct (biDi2_answers E _ _ _ _ H) as (B1 & B2). unfold owing.
    destruct due.
    - rewrite O2 in B2. cbn [atype_eqb] in B2. rewrite B2. destruct (logon_answers s) as [|x [|y q]]; cbn in *; split; auto; lia.
    - rewrite O2 in B2. destruct (atype_eqb _ _); rewrite B2; cbn; auto.
  Qed.

  Lemma ear_datagram : forall ds, keeps ear (@datagram I ds).
  Proof.
    intros ds. unfold datagram. apply keeps_bind; [apply keeps_get|intros r]. apply keeps_bind; [keeps_tac|intros _].
    apply keeps_bind; [apply keeps_get|intros r']. destruct (block_dyn _); [apply keeps_ret|apply ear_dyn].
  Qed.
  Lemma step_firm : forall o l s due, world l due s -> allowed complete o l due ->
    exists b s' es, step E o s = Ok (b, s', es) /\ world (listen o l) (owes o l due) s'.
  Proof.
    intros o l s due W Ha. pose proof W as [HR Hs Ho Ht Hf Hw Hh Hq].
    assert (K : exists b s' es, step E o s = Ok (b, s', es) /\ held (rxs s') /\ owing (owes o l due) s').
    { assert (V : is_receive o = false -> o <> OBiDi2 -> (forall b s' es, step E o s = Ok (b, s', es) -> ear (rxs s') = ear (rxs s)) ->
        (exists b s' es, step E o s = Ok (b, s', es)) -> exists b s' es, step E o s = Ok (b, s', es) /\ held (rxs s') /\ owing due s').
      { intros V1 V2 V3 (b & s' & es & V4). exists b, s', es. split; [exact V4|]. specialize (V3 _ _ _ V4). unfold ear in V3. injection V3 as V3 _.
        split; [exact (held_ear _ _ V3 Hh)|]. exact (owing_view _ _ _ (view_step E o V1 V2 _ _ _ _ V4) Hw). }
      destruct o as [| | |t| |ds| | |j v]; cbn [owes].
      - apply V; [reflexivity|discriminate|intros ? ? ? X; revert X; apply (ltac:(keeps_tac) : keeps ear (step E OInit))|].
        destruct (init_defined E HE s Logic.I) as ([] & s' & es' & H & _). cbn [step]. rewrite (done_step _ _ _ _ H). eauto.
      - apply V; [reflexivity|discriminate|intros ? ? ? X; revert X; apply (ltac:(keeps_tac) : keeps ear (step E OEnable))|].
        cbn [step]. unfold enable. destruct (enabled_flag (r_cv (rxs s))) eqn:Ee; do 3 eexists; apply done_step; rewrite bind_get, Ee; reflexivity.
      - destruct (enabled_flag (r_cv (rxs s))) eqn:Ee.
        + assert (X : exists s', step E ODisable s = Ok (false, s', []) /\ (f_packet_end (r_fsm (rxs s')), f_packet (r_fsm (rxs s'))) = (f_packet_end (r_fsm (rxs s)), f_packet (r_fsm (rxs s)))).
          { cbn [step]. unfold disable. eexists. split; [apply done_step; rewrite bind_get, Ee; reflexivity|reflexivity]. }
          destruct X as (s' & X & Y). exists false, s', []. split; [exact X|]. split; [injection Y as Y1 Y2; unfold held; rewrite Y1, Y2; exact Hh|].
          refine (owing_view _ _ _ (view_step E ODisable _ _ _ _ _ _ X) Hw); [reflexivity|discriminate].
        + exists false, s, []. split; [cbn [step]; unfold disable; apply done_step; rewrite bind_get, Ee; reflexivity|]. split; assumption.
      - destruct Ha as (A1 & A2 & A3). subst due. destruct (receive_firm E l s t HR Hs Hh Hw (conj A1 (conj A2 eq_refl))) as (s' & es & H & H1 & H2 & _).
        exists false, s', es. cbn [step]. rewrite (done_step _ _ _ _ H). auto.
      - apply V; [reflexivity|discriminate|intros ? ? ? X; exact (ear_execute E _ _ _ _ X)|]. exact (execute_world _ _ _ W).
      - apply V; [reflexivity|discriminate|intros ? ? ? X; cbn [step] in X; apply bind_inv in X; destruct X as (u & s1 & e1 & e2 & X & Y & _); inversion Y; subst; exact (ear_datagram _ _ _ _ _ X)|].
        pose proof Ht as Ht'. open_talk Ht'. destruct (datagram_run s ds Ha) as (new & _ & H); [assumption|exact Hf|]. cbn [step]. rewrite (done_step _ _ _ _ H). eauto.
      - apply V; [reflexivity|discriminate|intros ? ? ? X; revert X; apply (ltac:(keeps_tac) : keeps ear (step E OBiDi1))|].
        destruct (biDi1_total E s) as (s' & es & H). cbn [step]. rewrite (done_step _ _ _ _ H). eauto.
      - destruct (biDi2_firm E s (talk_stocked _ Ht)) as (s' & es & H & _); [apply Hh; destruct HR as (_ & _ & -> & _); exact Ha|].
        exists false, s', es. cbn [step]. rewrite (done_step _ _ _ _ H). split; [reflexivity|]. pose proof (ear_biDi2 E _ _ _ _ H) as X. unfold ear in X. injection X as X _.
        split; [exact (held_ear _ _ X Hh)|exact (biDi2_owing _ _ _ _ _ Hw H)].
      - apply V; [reflexivity|discriminate|intros ? ? ? X; revert X; cbn [step]; destruct (nth_error (pending s) j) as [c|]; [|intro X; inversion X; reflexivity];
          apply (ltac:(keeps_tac) : keeps ear (bind (run_cb E c v) (fun _ => ret false)))|].
        cbn [step]. destruct (nth_error (pending s) j) as [c|]; [|do 3 eexists; reflexivity]. destruct (run_cb_defined E c v s) as ([] & s' & es' & H). do 3 eexists. unfold bind. rewrite H. reflexivity. }
    destruct K as (b & s' & es & H & K1 & K2). exists b, s', es. split; [exact H|]. constructor.
    - exact (step_refines E _ _ _ _ _ _ HR H).
    - exact (sane_step E o _ _ _ _ H Hs).
    - exact (ordered_step E time HC _ _ _ _ _ Ho H).
    - exact (talk_step E o _ _ _ _ H Ht).
    - exact (fair_step E o _ _ _ _ H Hf).
    - exact K2.
    - exact K1.
    - exact (queue_whole o l s due HR Ha Hq).
  Qed.
  Lemma run_firm : forall os l s due, world l due s -> by_rules complete os l due ->
    exists s' es, run E os s = Ok (tt, s', es) /\ world (listen_all os l) (owes_all os l due) s'.
  Proof.
    induction os as [|o os IH]; intros l s due W Hb; [exists s, []; split; [reflexivity|exact W]|].
    destruct Hb as [H1 H2]. destruct (step_firm o l s due W H1) as (b & s1 & e1 & S1 & W1).
    destruct (IH _ _ _ W1 H2) as (s2 & e2 & S2 & W2). exists s2, (e1 ++ e2). split; [|exact W2].
    cbn [run]. unfold bind. rewrite S1, S2. reflexivity.
  Qed.
  Lemma world_0 : forall i, 0 <= time i -> world listener0 false (st0 i).
  Proof.
    intros i Hi. constructor.
    - apply Rl0.
    - apply sane_st0.
    - unfold ordered, wake_time, last_time. cbn. lia.
    - apply talk_0.
    - unfold fair, byte. cbn. lia.
    - split; [cbn; lia|reflexivity].
    - intro H. discriminate.
    - constructor.
  Qed.
End World.
