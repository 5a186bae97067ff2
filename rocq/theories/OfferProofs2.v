(** datagram() interrupted by the handlers: what becomes of the values offered. *)
From Verif Require Import Prelude Address Instruction SpecCodec Datagram RxState Rx RxLogic RxInv SpecRx SpecConf SpecBidi RxBitProofs ExecProofs
  ZBits SaneProofs LogonProofs4 BidiProofs BidiProofs2 BidiProofs3 BidiProofs6 BidiProofs7 Preempt SpecPreempt PreemptProofs PreemptProofs2 PreemptProofs4 PreemptData SpecOffer OfferProofs.

Section Moved.
  Context {I : Type} (E : Env I).
  Implicit Types s : st I.

  Lemma spoken_app : forall (m1 m2 : list (moment (I := I))) d1 d2, spoken_data m1 d1 -> spoken_data m2 d2 -> spoken_data (m1 ++ m2) (d1 ++ d2).
  Proof.
    intros m1 m2 d1 d2 (p1 & -> & F1) (p2 & -> & F2). exists (p1 ++ p2). rewrite concat_app. split; [reflexivity|]. apply Forall2_app; assumption.
  Qed.

  Definition moved s s' (ms : list (moment (I := I))) (ps : list (Z * Z)) : Prop := exists groups new,
    spoken_data ms (map (@concat Z) groups) /\ Forall (fun g => (1 <= length g <= 2)%nat) groups /\
    Forall2 says_point ps new /\ data_waiting s ++ new = concat groups ++ data_waiting s' /\ fit (rxs s').
  Definition kept s s' : Prop := quality s' = quality s /\ channel2_on s' = channel2_on s /\ data_blocked s' = data_blocked s.

  Lemma kept_refl : forall s, kept s s. Proof. repeat split. Qed.
  Lemma kept_trans : forall s s1 s2, kept s s1 -> kept s1 s2 -> kept s s2.
  Proof. intros s s1 s2 (A1 & A2 & A3) (B1 & B2 & B3). repeat split; congruence. Qed.
  Lemma moved_fit : forall s s' ms ps, moved s s' ms ps -> fit (rxs s').
  Proof. intros s s' ms ps (g & n & _ & _ & _ & _ & H). exact H. Qed.
  Lemma moved_refl : forall s, fit (rxs s) -> moved s s [] [].
  Proof. intros s H. exists [], []. split; [exists []; split; [reflexivity|constructor]|]. split; [constructor|]. split; [constructor|]. split; [apply app_nil_r|exact H]. Qed.
  Lemma moved_trans : forall s s1 s2 m1 m2 p1 p2, moved s s1 m1 p1 -> moved s1 s2 m2 p2 -> moved s s2 (m1 ++ m2) (p1 ++ p2).
  Proof.
    intros s s1 s2 m1 m2 p1 p2 (g1 & n1 & A1 & A2 & A3 & A4 & _) (g2 & n2 & B1 & B2 & B3 & B4 & B5).
    exists (g1 ++ g2), (n1 ++ n2). split; [rewrite map_app; apply spoken_app; assumption|]. split; [apply Forall_app; auto|].
    split; [apply Forall2_app; assumption|]. split; [|exact B5]. rewrite app_assoc, A4, <- app_assoc, B4, concat_app, <- app_assoc. reflexivity.
  Qed.
  Lemma moved_length : forall s s' ms ps, moved s s' ms ps -> (length (data_waiting s') <= length (data_waiting s) + length ps)%nat.
  Proof.
    intros s s' ms ps (g & n & _ & _ & A3 & A4 & _). apply F2_length in A3. apply (f_equal (@length _)) in A4. rewrite !app_length in A4. lia.
  Qed.

  Lemma biDi2_fit : forall s u s' es, fit (rxs s) -> biDiChannel2 E s = Ok (u, s', es) ->
    exists ds, es = map ETransmitBiDi ds /\ answer2 s ds (SpecBidi.waiting s').
  Proof.
    intros s u s' es (Ht0 & Hs0 & _) H. destruct (biDi2_exact E s) as (s2 & ds & H2 & H3 & H4).
    - exact Ht0.
    - intros [Ht Ho]. apply same_spec in Ho. unfold biDiChannel2 in H. rewrite bind_get in H. cbv zeta in H.
      change (if logon_assigned (r_logon (rxs s)) then logon (r_addrs (rxs s)) else primary (r_addrs (rxs s))) with (answering_as s) in H.
      change (received (r_addrs (rxs s))) with (last_address s) in H. rewrite Ho in H. unfold last_bytes.
      destruct (decode_instruction_packet (f_packet (r_fsm (rxs s)))) as [j|]; [eauto|]. exfalso.
      destruct (atyp (last_address s)); cbn [In] in Ht; try (intuition discriminate); discriminate H.
    - open_sane Hs0. exact Hpk.
    - rewrite H2 in H. inversion H; subst. exists ds. auto.
  Qed.
  Lemma spoken_one : forall (m : moment (I := I)) part,
    (match m with
     | (s, OBiDi2, es) => (data_turn s /\ part = sent es) \/ (~ data_turn s /\ part = [])
     | _ => part = []
     end) -> spoken_data [m] part.
  Proof. intros m part H. exists [part]. split; [cbn; rewrite app_nil_r; reflexivity|]. constructor; [exact H|constructor]. Qed.

  Lemma moved_step : forall o s b s' es, (forall x, o <> ODatagram x) -> fit (rxs s) -> step E o s = Ok (b, s', es) -> moved s s' [(s, o, es)] [].
  Proof.
    intros o s b s' es N Hf H. pose proof (fit_step E o _ _ _ _ H Hf) as Hf'.
    assert (D : o = OBiDi2 \/ o <> OBiDi2) by (destruct o; auto; right; discriminate).
    destruct D as [->|D].
    - cbn [step] in H. apply bind_inv in H. destruct H as (u & s2 & e3 & e4 & H & H2 & ->). inversion H2; subst. clear H2. rewrite app_nil_r.
      destruct (biDi2_fit _ _ _ _ Hf H) as (ds & -> & Ha). destruct (answer_turn _ _ _ Ha) as [A1 A2].
      destruct (turn_dec s) as [T|T].
      + destruct (A1 T) as [-> Hw]. change (data_waiting s' = skipn 2 (data_waiting s)) in Hw. unfold payload.
        destruct (data_waiting s) as [|d q] eqn:Ed.
        * exists [], []. split; [apply spoken_one; left; auto|]. split; [constructor|]. split; [constructor|]. split; [|exact Hf'].
          rewrite Ed, Hw. reflexivity.
        * exists [firstn 2 (d :: q)], []. split; [apply spoken_one; left; auto|]. split.
          { constructor; [|constructor]. rewrite firstn_length. cbn [length]. lia. }
          split; [constructor|]. split; [|exact Hf']. rewrite Hw, Ed. cbn [concat]. rewrite !app_nil_r, firstn_skipn. reflexivity.
      + pose proof (A2 T) as Hw. change (data_waiting s' = data_waiting s) in Hw. exists [], []. split; [apply spoken_one; right; auto|].
        split; [constructor|]. split; [constructor|]. split; [|exact Hf']. rewrite Hw. apply app_nil_r.
    - destruct (other_data E _ _ _ _ _ H N D) as [Hw _]. exists [], []. split; [apply spoken_one; destruct o; try reflexivity; contradiction|].
      split; [constructor|]. split; [constructor|]. split; [|exact Hf']. rewrite Hw. apply app_nil_r.
  Qed.
  Lemma moved_run : forall os s s' es, Forall (fun o => forall x, o <> ODatagram x) os -> fit (rxs s) -> run E os s = Ok (tt, s', es) ->
    moved s s' (moments E os s) [].
  Proof.
    induction os as [|o os IH]; intros s s' es N Hf H.
    - inversion H; subst. apply moved_refl. exact Hf.
    - inversion N as [|? ? N1 N2]; subst. cbn [run] in H. apply bind_inv in H. destruct H as (b & s1 & e1 & e2 & H1 & H2 & ->).
      cbn [moments]. rewrite H1. pose proof (moved_step _ _ _ _ _ N1 Hf H1) as M1.
      change ((s, o, e1) :: moments E os s1) with ([(s, o, e1)] ++ moments E os s1). change (@nil (Z * Z)) with (@nil (Z * Z) ++ []).
      apply moved_trans with s1; [exact M1|]. apply (IH _ _ e2); [exact N2|exact (moved_fit _ _ _ _ M1)|exact H2].
  Qed.

  Definition settings_of (r : rx) := (qos (r_cnt r), ch2_data_enabled (r_conf r), block_dyn (r_bidi r)).
  Lemma kept_step : forall o s b s' es, handler o -> step E o s = Ok (b, s', es) -> kept s s'.
  Proof.
    intros o s b s' es Ho H. assert (K : settings_of (rxs s') = settings_of (rxs s)).
    { destruct o; try destruct Ho; cbn [step] in H.
      - assert (keeps settings_of (bind (receive E time) (fun _ => ret false))) as K by keeps_tac. exact (K _ _ _ _ H).
      - assert (keeps settings_of (bind (biDiChannel1 E) (fun _ => ret false))) as K by keeps_tac. exact (K _ _ _ _ H).
      - assert (keeps settings_of (bind (biDiChannel2 E) (fun _ => ret false))) as K by keeps_tac. exact (K _ _ _ _ H). }
    unfold settings_of in K. injection K as K1 K2 K3. repeat split; assumption.
  Qed.
  Lemma kept_run : forall os s s' es, Forall handler os -> run E os s = Ok (tt, s', es) -> kept s s'.
  Proof.
    induction os as [|o os IH]; intros s s' es N H; [inversion H; subst; apply kept_refl|].
    inversion N as [|? ? N1 N2]; subst. cbn [run] in H. apply bind_inv in H. destruct H as (b & s1 & e1 & e2 & H1 & H2 & _).
    apply kept_trans with s1; [exact (kept_step _ _ _ _ _ N1 H1)|exact (IH _ _ _ N2 H2)].
  Qed.
  Lemma handler_no_data : forall os, Forall handler os -> Forall (fun o => forall x, o <> ODatagram x) os.
  Proof. intros os H. eapply Forall_impl; [|exact H]. intros o Ho x ->. exact Ho. Qed.

  (** ** Steps *)
  Lemma first_step : forall A B m (k : B -> prog A) w s o s' es, Forall (Forall handler) w -> fit (rxs s) ->
    preempted E (Act B m k) w s = Ok (o, s', es) -> exists s1 b s2 e2 o' es',
    moved s s1 (moments E (hd [] w) s) [] /\ kept s s1 /\ m s1 = Ok (b, s2, e2) /\ preempted E (k b) (tl w) s2 = Ok (o', s', es') /\
    meanwhile E (Act B m k) w s = moments E (hd [] w) s ++ meanwhile E (k b) (tl w) s2 /\ Forall (Forall handler) (tl w).
  Proof.
    intros A B m k w s o s' es Hw Hf H. apply preempted_inv in H.
    destruct H as (s1 & e1 & b & s2 & e2 & a & sn & sv & e3 & H1 & H2 & H3 & _ & _).
    exists s1, b, s2, e2, (a, sn, sv), e3. pose proof (handlers_hd _ Hw) as Hh.
    split; [apply (moved_run _ _ _ e1); [apply handler_no_data; exact Hh|exact Hf|exact H1]|].
    split; [exact (kept_run _ _ _ _ Hh H1)|]. split; [exact H2|]. split; [exact H3|].
    split; [cbn [meanwhile]; rewrite H1, H2; reflexivity|apply handlers_tl; exact Hw].
  Qed.
  Lemma first_rd : forall A X (f : rx -> X) (k : X -> prog A) w s o s' es, Forall (Forall handler) w -> fit (rxs s) ->
    preempted E (pbind (rd f) k) w s = Ok (o, s', es) -> exists s1 m1 o' es',
    moved s s1 m1 [] /\ kept s s1 /\ preempted E (k (f (rxs s1))) (tl w) s1 = Ok (o', s', es') /\
    meanwhile E (pbind (rd f) k) w s = m1 ++ meanwhile E (k (f (rxs s1))) (tl w) s1 /\ Forall (Forall handler) (tl w).
  Proof.
    intros A X f k w s o s' es Hw Hf H. unfold rd, act in H. cbn [pbind] in H.
    destruct (first_step _ _ _ _ _ _ _ _ _ Hw Hf H) as (s1 & b & s2 & e2 & o' & es' & M & K & H1 & H2 & H3 & H4).
    unfold gets in H1. inversion H1; subst. exists s2, (moments E (hd [] w) s), o', es'. repeat split; try assumption; apply K.
  Qed.
  Lemma first_wr : forall A (f : rx -> rx) (k : unit -> prog A) w s o s' es, Forall (Forall handler) w -> fit (rxs s) ->
    preempted E (pbind (wr f) k) w s = Ok (o, s', es) -> exists s1 m1 o' es',
    moved s s1 m1 [] /\ kept s s1 /\ preempted E (k tt) (tl w) (Mk_st (f (rxs s1)) (app s1) (pending s1)) = Ok (o', s', es') /\
    meanwhile E (pbind (wr f) k) w s = m1 ++ meanwhile E (k tt) (tl w) (Mk_st (f (rxs s1)) (app s1) (pending s1)) /\ Forall (Forall handler) (tl w).
  Proof.
    intros A f k w s o s' es Hw Hf H. unfold wr, act in H. cbn [pbind] in H.
    destruct (first_step _ _ _ _ _ _ _ _ _ Hw Hf H) as (s1 & [] & s2 & e2 & o' & es' & M & K & H1 & H2 & H3 & H4).
    unfold modify in H1. inversion H1; subst. exists s1, (moments E (hd [] w) s), o', es'. repeat split; try assumption; apply K.
  Qed.
  Lemma done : forall A (a : A) w s o s' es, preempted E (Done a) w s = Ok (o, s', es) -> s' = s /\ meanwhile E (Done a) w s = [].
  Proof. intros A a w s o s' es H. inversion H; subst. auto. Qed.
  Lemma meanwhile_pbind : forall A C (P : prog A) (k : A -> prog C) w s a sn sv s1 e1, preempted E P w s = Ok ((a, sn, sv), s1, e1) ->
    meanwhile E (pbind P k) w s = meanwhile E P w s ++ meanwhile E (k a) (skipn (length sn) w) s1.
  Proof.
    intros A C P k. induction P as [a0|B m h IH]; intros w s a sn sv s1 e1 H.
    - inversion H; subst. reflexivity.
    - apply preempted_inv in H. destruct H as (s2 & e2 & b & s3 & e3 & a' & sn' & sv' & e4 & H1 & H2 & H3 & Ho & _). injection Ho as -> -> ->.
      cbn [pbind meanwhile]. rewrite H1, H2. rewrite (IH _ _ _ _ _ _ _ _ H3), app_assoc. cbn [length].
      destruct w; [|reflexivity]. cbn [tl]. rewrite !skipn_nil. reflexivity.
  Qed.
End Moved.
