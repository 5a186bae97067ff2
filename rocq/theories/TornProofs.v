(** A decoder whose executions are interrupted simulates the interpreter *)
From Verif Require Import Prelude Address SpecCodec RxState Rx RxLogic SpecRx RxBitProofs RxBitProofs4
  SpecExec ExecProofs SpecConf SpecCv SpecLayout LayoutProofs LayoutProofs2 LayoutProofs3 LayoutProofs4
  Preempt SpecPreempt PreemptProofs PreemptProofs2 PreemptProofs4 SpecTorn.

(** ** Packets heard consist of bytes, three of them at least *)

Definition sound_packet (p : list Z) : Prop := Forall byte p /\ (3 <= length p)%nat.

Lemma byte_of_byte : forall b7 b6 b5 b4 b3 b2 b1 b0, byte (byte_of [b7; b6; b5; b4; b3; b2; b1; b0]).
Proof. intros [] [] [] [] [] [] [] []; unfold byte, byte_of; cbn; lia. Qed.

Lemma bytes_of_bytes : forall n bits, (length bits <= n)%nat -> Forall byte (fst (bytes_of bits)).
Proof.
  induction n as [|n IH]; intros bits Hn.
  - destruct bits; [constructor|cbn in Hn; lia].
  - destruct bits as [|b7 [|b6 [|b5 [|b4 [|b3 [|b2 [|b1 [|b0 more]]]]]]]]; try (constructor; fail).
    cbn [bytes_of]. pose proof (byte_of_byte b7 b6 b5 b4 b3 b2 b1 b0) as Hb.
    set (b := byte_of _) in *. clearbody b.
    destruct more as [|[] rest]; cbn [fst]; [repeat constructor; apply Hb|repeat constructor; apply Hb|].
    assert (Hr : Forall byte (fst (bytes_of rest))) by (apply IH; cbn [length] in Hn; lia).
    destruct (bytes_of rest) as [bs stop]. cbn [fst] in *. constructor; assumption.
Qed.

Lemma reading_bytes : forall hs bs, reading hs = Packet bs -> Forall byte bs.
Proof.
  intros hs bs H. unfold reading in H. destruct (after_ones hs) as [|x r]; [discriminate|].
  destruct (ones hs <? 20)%nat; [discriminate|]. destruct r as [|y body]; [discriminate|].
  pose proof (bytes_of_bytes _ (samples body) (le_n _)) as Hb.
  destruct (bytes_of (samples body)) as [cs []]; [|discriminate]. injection H as <-. exact Hb.
Qed.

Lemma completed_sound : forall o l bs, completed o l = Some bs -> sound_packet bs.
Proof.
  intros o l bs H. destruct o; try discriminate. cbn [completed] in H. destruct (half_bit time) as [b|]; [|discriminate].
  cbv zeta in H. destruct (_ && _); [discriminate|]. destruct (reading _) as [| |cs] eqn:Er; try discriminate.
  destruct (valid_packet cs) eqn:Ev; [|discriminate]. injection H as <-. split; [exact (reading_bytes _ _ Er)|].
  unfold valid_packet in Ev. apply andb_prop in Ev. apply Nat.leb_le, Ev.
Qed.

Lemma heard_sound : forall os l, Forall sound_packet (heard os l).
Proof.
  induction os as [|o os IH]; intros l; [constructor|]. cbn [heard]. apply Forall_app. split; [|apply IH].
  destruct (completed o l) as [bs|] eqn:Ec; [|constructor]. destruct (is_logon bs); repeat constructor; apply (completed_sound _ _ _ Ec).
Qed.

Lemma listen_sound : forall o l, Forall sound_packet (l_queue l) -> Forall sound_packet (l_queue (listen o l)).
Proof.
  intros o l H. destruct o; try exact H.
  - cbn [listen]. destruct (l_on l); exact H.
  - pose proof (completed_sound (OReceive time) l) as Hc. cbn [listen completed] in *. destruct (half_bit time) as [b|]; [|exact H].
    unfold hear. cbv zeta in *. destruct (_ && _); [exact H|]. destruct (reading _) as [| |cs]; try exact H.
    destruct (valid_packet cs); [|exact H]. cbn [l_queue]. destruct (is_logon cs); [exact H|].
    apply Forall_app. split; [exact H|]. repeat constructor; apply (Hc cs eq_refl).
  - cbn [listen]. destruct (l_fresh l); [exact H|]. cbn [l_queue]. destruct (l_queue l); [constructor|]. inversion H; assumption.
Qed.
Lemma listen_all_sound : forall os l, Forall sound_packet (l_queue l) -> Forall sound_packet (l_queue (listen_all os l)).
Proof.
  induction os as [|o os IH]; intros l H; [exact H|]. apply (IH (listen o l)). apply listen_sound. exact H.
Qed.
Lemma without_sound : forall o l, Forall sound_packet (l_queue l) -> Forall sound_packet (l_queue (without_first o l)).
Proof.
  intros o l H. unfold without_first. destruct (worked_on o); [|exact H]. cbn [l_queue].
  destruct (l_queue l); [constructor|]. inversion H; assumption.
Qed.

(** ** The page register of the interpreter holds a byte *)

Lemma perform_page : forall x v, v_page (fst (perform x v)) = v_page v.
Proof. intros x v. unfold perform. destruct (permitted _ _); reflexivity. Qed.
Lemma perform_all_page : forall xs v, v_page (fst (perform_all xs v)) = v_page v.
Proof.
  induction xs as [|x xs IH]; intros v; [reflexivity|]. cbn [perform_all].
  pose proof (perform_page x v) as H1. destruct (perform x v) as [v1 a]. pose proof (IH v1) as H2.
  destruct (perform_all xs v1) as [v2 b]. cbn [fst] in *. congruence.
Qed.
Lemma obey_page : forall ew p v, Forall byte p -> byte (v_page v) -> byte (v_page (fst (obey ew p v))).
Proof.
  intros ew p v Hp Hv.
  assert (Hn : forall k, byte (nth k p 0)).
  { intros k. destruct (nth_in_or_default k p 0) as [H| ->]; [|unfold byte; lia]. rewrite Forall_forall in Hp. apply Hp. exact H. }
  unfold obey. destruct (v_service v).
  - unfold service. cbv zeta. repeat match goal with |- context[if ?c then _ else _] => destruct c end;
      cbn [fst with_service with_page v_page]; rewrite ?perform_page, ?perform_all_page; cbn [count v_page]; auto.
  - unfold operations. destruct (recipient _ _); [|exact Hv]. destruct (body_of p) as [|b0 t]; [exact Hv|]. cbv zeta.
    repeat match goal with |- context[if ?c then _ else _] => destruct c end;
      cbn [fst with_service with_page v_page]; rewrite ?perform_page, ?perform_all_page; cbn [count v_page]; auto.
Qed.
Lemma obey_all_page : forall ew ps v, Forall sound_packet ps -> byte (v_page v) -> byte (v_page (fst (obey_all ew ps v))).
Proof.
  intros ew. induction ps as [|p ps IH]; intros v Hp Hv; [exact Hv|]. inversion Hp as [|? ? H1 H2]; subst. cbn [obey_all].
  pose proof (obey_page ew p v (proj1 H1) Hv) as Ho. destruct (obey ew p v) as [v1 a]. cbn [fst] in Ho.
  pose proof (IH v1 H2 Ho) as Hr. destruct (obey_all ew ps v1) as [v2 b]. exact Hr.
Qed.

Lemma seen_commands : forall es, seen_in (commands es) = seen_in es.
Proof.
  induction es as [|e es IH]; [reflexivity|]. unfold commands, seen_in in *. cbn [filter flat_map].
  destruct e; cbn [transmission negb]; cbn [flat_map]; rewrite ?IH; reflexivity.
Qed.

Lemma logons_none : forall os l, logons os l = [] -> no_logon os l.
Proof.
  induction os as [|o os IH]; intros l H; [exact Logic.I|]. cbn [logons] in H. apply app_eq_nil in H. destruct H as [H1 H2].
  split; [|apply IH; exact H2]. intros bs Hc. rewrite Hc in H1. destruct (is_logon bs); [discriminate|reflexivity].
Qed.

Section Torn.
  Context {I : Type} (E : Env I) (m : I -> Z -> Z) (able : access -> Prop) (Hk : keeps_cvs able E m).
  Hypothesis deaf : forall i d, e_hook E i (ETransmitBiDi d) = i.
  Implicit Types s : st I.
  Notation Sim := (Sim m).

  Definition sound (l : listener) (v : view) s : Prop :=
    Rl l s /\ Sim v s /\ byte (v_page v) /\ pending s = [] /\ Forall sound_packet (l_queue l).

  Lemma sound_ready : forall l s p q, Rl l s -> Forall sound_packet (l_queue l) -> ready s p q -> sound_packet p.
  Proof.
    intros l s p q (_ & Hq & _) Hs [_ Hd]. rewrite Hq in Hd. rewrite Hd in Hs. inversion Hs; assumption.
  Qed.

  Lemma sound_step : forall o l v s b s' es, sound l v s -> step E o s = Ok (b, s', es) ->
    (forall bs, completed o l = Some bs -> is_logon bs = false) ->
    let x := obey_all (e_east_west E) (match o with OExecute => if l_fresh l then [] else firstn 1 (l_queue l) | _ => [] end) v in
    Forall (allowed able) (snd x) -> sound (listen o l) (fst x) s' /\ seen_in es = snd x.
  Proof.
    intros o l v s b s' es (HR & HS & Hvp & Hpe & Hq) H Hno x Hra.
    destruct (layout_step E m able Hk o l v s b s' es HR HS Hvp Hpe (fun p q => sound_ready l s p q HR Hq) H Hno Hra) as [A B].
    split; [|exact B]. split; [exact (step_refines E o l s b s' es HR H)|]. split; [exact A|].
    split; [|split; [exact (still_step E m able Hk o s b s' es Hpe H)|apply listen_sound; exact Hq]].
    apply obey_all_page; [|exact Hvp]. destruct o; try constructor. destruct (l_fresh l); [constructor|].
    destruct (l_queue l); [constructor|]. inversion Hq; subst. repeat constructor; apply H2.
  Qed.

  Lemma sound_run : forall os l v s s' es, sound l v s -> run E os s = Ok (tt, s', es) -> logons os l = [] ->
    let x := obey_all (e_east_west E) (taken os l) v in
    Forall (allowed able) (snd x) -> sound (listen_all os l) (fst x) s' /\ seen_in es = snd x.
  Proof.
    induction os as [|o os IH]; intros l v s s' es Hg H Hlo; cbv zeta.
    - cbn [run] in H. unfold ret in H. assert (s' = s) as -> by congruence. assert (es = []) as -> by congruence. auto.
    - cbn [run] in H. apply bind_inv in H. destruct H as (b & s1 & e1 & e2 & H1 & H2 & ->).
      cbn [taken]. rewrite obey_app. cbn [fst snd]. intros Hra. apply Forall_app in Hra. destruct Hra as [Hr1 Hr2].
      pose proof (proj1 (logons_none _ _ Hlo)) as Hno. cbn [logons] in Hlo. apply app_eq_nil in Hlo. destruct Hlo as [_ Hl2].
      destruct (sound_step o l v s b s1 e1 Hg H1 Hno Hr1) as [G1 S1].
      destruct (IH _ _ _ _ _ G1 H2 Hl2 Hr2) as [G2 S2].
      split; [exact G2|]. rewrite seen_app, S1, S2. reflexivity.
  Qed.

  Lemma Sim_same : forall v s s', same_decoder s s' -> Sim v s -> Sim v s'.
  Proof.
    intros v s s' [S1 S2 S3 S4 S5 S6 S7 S8 S9 S10 S11 S12 S13 S14] (A & (B1 & B2 & B3) & C & D).
    unfold LayoutProofs.Sim, SpecConf.active, regs in *. rewrite S1, S2, S3, S4, S5, S9, S13. auto.
  Qed.
  Lemma Sim_only : forall v p s, Sim v s -> Sim v (only p s).
  Proof. intros v p s H. exact H. Qed.

  (** An interrupted execution *)
  Lemma sound_torn : forall w l v s o s' es, Forall (Forall handler) w -> sound l v s ->
    preempted E (executeP E) w s = Ok (o, s', es) -> logons (served o) l = [] ->
    let x := obey_all (e_east_west E) (match worked_on o with Some p => [p] | None => [] end) v in
    Forall (allowed able) (snd x) ->
    sound (without_first o (listen_all (served o) l)) (fst x) s' /\ seen_in es = snd x.
  Proof.
    intros w l v s o s' es Hw (HR & HS & Hvp & Hpe & Hq) H Hlo. cbv zeta. intros Hra.
    destruct (torn_execute E w l s o s' es (handlers_interrupting _ Hw) HR H) as (_ & _ & HR' & Hp).
    pose proof (torn_same E deaf w l s o s' es Hw HR (logons_none _ _ Hlo) H) as Ht.
    assert (Hq' : Forall sound_packet (l_queue (without_first o (listen_all (served o) l))))
      by (apply without_sound, listen_all_sound; exact Hq).
    destruct (worked_on o) as [p|].
    - assert (Hsp : sound_packet p).
      { assert (Ha : Forall sound_packet (l_queue l ++ heard (served o) l)) by (apply Forall_app; split; [exact Hq|apply heard_sound]).
        destruct (l_queue l ++ heard (served o) l); [discriminate|]. injection Hp as ->. inversion Ha; assumption. }
      destruct Ht as (s1 & Hx & Hsame).
      assert (Hrd : forall p' q', ready (only p s) p' q' -> Forall byte p' /\ (3 <= length p')%nat).
      { intros p' q' [_ Hd]. cbn in Hd. injection Hd as <- <-. exact Hsp. }
      assert (Hr0 : ready (only p s) p []) by (split; reflexivity).
      destruct (sim_execute E m able Hk v (only p s) (told o) s1 (commands es) Hrd (Sim_only v p s HS) Hvp Hx)
        as [(_ & _ & Hn)|(p' & q' & [_ Hd] & Hs)]; [elim (Hn p [] Hr0)|].
      cbn in Hd. injection Hd as <- <-. cbn [obey_all] in *.
      pose proof (obey_page (e_east_west E) p v (proj1 Hsp) Hvp) as Hpg.
      destruct (obey (e_east_west E) p v) as [v1 a]. cbn [fst snd] in *. rewrite app_nil_r in *.
      destruct (Hs Hra) as [HS1 Hse]. rewrite seen_commands in Hse. split; [|exact Hse].
      split; [exact HR'|]. split; [exact (Sim_same _ _ _ Hsame HS1)|]. split; [exact Hpg|]. split; [|exact Hq'].
      rewrite (same_pending _ _ Hsame). exact (still_step E m able Hk OExecute (only p s) _ s1 _ Hpe Hx).
    - destruct Ht as (_ & Hsame & Hc). cbn [obey_all fst snd]. split; [|rewrite <- seen_commands, Hc; reflexivity].
      split; [exact HR'|]. split; [exact (Sim_same _ _ _ Hsame HS)|]. split; [exact Hvp|]. split; [|exact Hq'].
      rewrite (same_pending _ _ Hsame). exact Hpe.
  Qed.

  Lemma sound_session : forall ts l v s outs s' es, Forall (fun t => Forall (Forall handler) (snd t)) ts -> sound l v s ->
    session E ts s = Ok (outs, s', es) -> unassigned ts outs l ->
    let x := obey_all (e_east_west E) (all_executed ts outs l) v in
    Forall (allowed able) (snd x) -> sound (all_listened ts outs l) (fst x) s' /\ seen_in es = snd x.
  Proof.
    induction ts as [|[os w] ts IH]; intros l v s outs s' es Hw Hg H Hlo; cbv zeta.
    - cbn [session] in H. unfold ret in H. assert (outs = []) as -> by congruence. assert (s' = s) as -> by congruence.
      assert (es = []) as -> by congruence. auto.
    - inversion Hw as [|? ? Hw1 Hw2]; subst. cbn [snd] in Hw1. cbn [session] in H.
      apply bind_inv in H. destruct H as ([] & s1 & e1 & f1 & H1 & H & ->).
      apply bind_inv in H. destruct H as (o & s2 & e2 & f2 & H2 & H & ->).
      apply bind_inv in H. destruct H as (y & s3 & e3 & f3 & H3 & H & ->). unfold ret in H.
      assert (outs = o :: y) as -> by congruence. assert (s' = s3) as -> by congruence. assert (f3 = []) as -> by congruence.
      rewrite app_nil_r. clear H. cbn [unassigned] in Hlo. destruct Hlo as (L1 & L2 & L3).
      cbn [all_executed all_listened]. rewrite !obey_app. cbn [fst snd]. intros Hra.
      apply Forall_app in Hra. destruct Hra as [R1 Hra]. apply Forall_app in Hra. destruct Hra as [R2 R3].
      destruct (sound_run os l v s s1 e1 Hg H1 L1 R1) as [G1 S1].
      destruct (sound_torn w _ _ s1 o s2 e2 Hw1 G1 H2 L2 R2) as [G2 S2].
      destruct (IH _ _ _ _ _ _ Hw2 G2 H3 L3 R3) as [G3 S3].
      split; [exact G3|]. rewrite !seen_app, S1, S2, S3. reflexivity.
  Qed.

  Lemma sound_new : forall i s es, run E [OInit] (st0 i) = Ok (tt, s, es) ->
    sound listener0 (new_view (m i)) s /\ seen_in es = [].
  Proof.
    intros i s es H. destruct (good_new E m able Hk i s es H) as [Hg Hs]. split; [|exact Hs].
    pose proof (good_page E m _ _ _ Hg) as Hp. destruct Hg as (_ & HR & HS & _ & Hpe).
    split; [exact HR|]. split; [exact HS|]. split; [exact Hp|]. split; [exact Hpe|]. constructor.
  Qed.

  Theorem torn_layout : forall ts i outs s es,
    Forall (fun t => Forall (Forall handler) (snd t)) ts ->
    bind (run E [OInit]) (fun _ => session E ts) (st0 i) = Ok (outs, s, es) -> unassigned ts outs listener0 ->
    let x := obey_all (e_east_west E) (all_executed ts outs listener0) (new_view (m i)) in
    Forall (allowed able) (snd x) ->
    seen_in es = snd x /\ (forall a, m (app s) a = v_cvs (fst x) a) /\ in_service s = v_service (fst x) /\ page s = v_page (fst x) /\
    all_heard ts outs listener0 = all_executed ts outs listener0 ++ r_deque (rxs s).
  Proof.
    intros ts i outs s es Hw H Hlo x Hra. subst x. apply bind_inv in H. destruct H as ([] & s1 & e1 & e2 & H1 & H2 & ->).
    destruct (sound_new i s1 e1 H1) as [G1 S1].
    destruct (sound_session ts _ _ _ _ _ _ Hw G1 H2 Hlo Hra) as [(_ & HS & _) S2].
    rewrite seen_app, S1, S2. split; [reflexivity|]. split; [exact (proj1 HS)|].
    destruct HS as (_ & _ & HS & _). unfold regs in HS. unfold in_service, page. split; [congruence|]. split; [congruence|].
    assert (Hi : Forall (fun t : list op * list (list op) => interrupting (snd t)) ts)
      by (eapply Forall_impl; [|exact Hw]; intros t; apply handlers_interrupting).
    exact (proj2 (session_queue E ts listener0 s1 outs s e2 Hi (proj1 G1) H2)).
  Qed.
End Torn.
