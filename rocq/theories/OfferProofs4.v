(** datagram() interrupted by cutouts is defined. *)
From Verif Require Import Prelude Address Instruction SpecCodec Datagram RxState Rx RxLogic RxInv SpecRx SpecConf SpecExec SpecCv SpecLogon SpecBidi RxBitProofs ExecProofs
  ZBits SaneProofs LogonProofs4 BidiProofs BidiProofs2 BidiProofs3 BidiProofs4 BidiProofs6 Preempt SpecPreempt PreemptProofs2 PreemptProofs4 PreemptData SpecOffer OfferProofs OfferProofs2.

Section Defined.
  Context {I : Type} (E : Env I).
  Implicit Types s : st I.

  Definition good s : Prop := fit (rxs s) /\ (3 <= length (last_bytes s))%nat.
  Definition cuts_only (os : list op) : Prop := Forall (fun o => o = OBiDi1 \/ o = OBiDi2) os.
  Definition works {A} (P : prog (I := I) A) w s : Prop := exists x, preempted E P w s = Ok x.

  Lemma run_total : forall os s, cuts_only os -> good s -> exists s' es, run E os s = Ok (tt, s', es) /\ good s' /\
    (length (data_waiting s') <= length (data_waiting s))%nat.
  Proof.
    induction os as [|o os IH]; intros s Ho Hs; [exists s, []; auto|]. inversion Ho as [|? ? H1 H2]; subst.
    assert (S : exists s1 e1, step E o s = Ok (false, s1, e1) /\ r_fsm (rxs s1) = r_fsm (rxs s)).
    { destruct Hs as [(Ht & Hsa & _) Hl]. destruct H1 as [-> | ->]; cbn [step].
      - destruct (biDi1_exact E s Ht) as (s1 & ds & B & _). exists s1. eexists. split; [unfold bind; rewrite B; reflexivity|].
        assert (K : keeps (fun r => r_fsm r) (biDiChannel1 E)) by keeps_tac. exact (K _ _ _ _ B).
      - destruct (biDi2_exact E s Ht) as (s1 & ds & B & _); [intros _; apply packet_decodes; exact Hl|open_sane Hsa; exact Hpk|].
        exists s1. eexists. split; [unfold bind; rewrite B; reflexivity|].
        assert (K : keeps (fun r => r_fsm r) (biDiChannel2 E)) by keeps_tac. exact (K _ _ _ _ B). }
    destruct S as (s1 & e1 & S1 & S2). destruct Hs as [Hf Hl].
    assert (N : forall x, o <> ODatagram x) by (intros x ->; destruct H1; discriminate).
    pose proof (moved_step E _ _ _ _ _ N Hf S1) as M.
    destruct (IH s1 H2) as (s2 & e2 & R & G & L); [split; [exact (moved_fit _ _ _ _ M)|unfold last_bytes in *; rewrite S2; exact Hl]|].
    apply moved_length in M. cbn [length] in M. exists s2. eexists. split; [cbn [run]; unfold bind; rewrite S1, R; reflexivity|]. split; [exact G|lia].
  Qed.
  Lemma cuts_hd : forall w, Forall cuts_only w -> cuts_only (hd [] w).
  Proof. intros [|a w] H; [constructor|inversion H; assumption]. Qed.
  Lemma cuts_tl : forall w, Forall cuts_only w -> Forall cuts_only (tl w).
  Proof. intros [|a w] H; [constructor|inversion H; assumption]. Qed.
  Lemma works_act : forall A B (m : M B) (k : B -> prog A) w s, Forall cuts_only w -> good s ->
    (forall s1, good s1 -> (length (data_waiting s1) <= length (data_waiting s))%nat -> exists b s2 e2, m s1 = Ok (b, s2, e2) /\ works (k b) (tl w) s2) ->
    works (Act B m k) w s.
  Proof.
    intros A B m k w s Hw Hs H. destruct (run_total _ s (cuts_hd _ Hw) Hs) as (s1 & e1 & R & G & L).
    destruct (H s1 G L) as (b & s2 & e2 & H1 & ([[[[a sn] sv] s3] e3] & H2)). eexists. cbn [preempted]. unfold bind at 1. rewrite R, bind_get.
    unfold bind at 1. rewrite H1. unfold bind. rewrite H2. reflexivity.
  Qed.
  Lemma works_rd : forall A X (f : rx -> X) (k : X -> prog A) w s, Forall cuts_only w -> good s ->
    (forall s1, good s1 -> (length (data_waiting s1) <= length (data_waiting s))%nat -> works (k (f (rxs s1))) (tl w) s1) ->
    works (pbind (rd f) k) w s.
  Proof.
    intros A X f k w s Hw Hs H. apply works_act; [exact Hw|exact Hs|]. intros s1 G L. do 3 eexists. split; [reflexivity|]. exact (H s1 G L).
  Qed.
  Lemma works_wr : forall A (f : rx -> rx) (k : unit -> prog A) w s, Forall cuts_only w -> good s ->
    (forall s1, good s1 -> (length (data_waiting s1) <= length (data_waiting s))%nat -> works (k tt) (tl w) (Mk_st (f (rxs s1)) (app s1) (pending s1))) ->
    works (pbind (wr f) k) w s.
  Proof.
    intros A f k w s Hw Hs H. apply works_act; [exact Hw|exact Hs|]. intros s1 G L. do 3 eexists. split; [reflexivity|]. exact (H s1 G L).
  Qed.
  Lemma works_done : forall A (a : A) w s, works (Done a) w s.
  Proof. intros. eexists. reflexivity. Qed.
  Lemma pbind_if : forall A C (b : bool) (P Q : prog (I := I) A) (k : A -> prog C), pbind (if b then P else Q) k = if b then pbind P k else pbind Q k.
  Proof. intros A C [] P Q k; reflexivity. Qed.

  Lemma push_works : forall A d x (k : unit -> prog A) w s, byte d -> 0 <= x < 64 -> Forall cuts_only w -> good s ->
    (forall w' s1, Forall cuts_only w' -> good s1 -> works (k tt) w' s1) -> works (pbind (dyn_pushP d x) k) w s.
  Proof.
    intros A d x k w s Hd Hx Hw Hs H. unfold dyn_pushP, fullP.
    match goal with |- works (pbind (pbind (rd ?f) ?g) ?h) _ _ => change (pbind (pbind (rd f) g) h) with (pbind (I := I) (rd f) (fun x => pbind (g x) h)) end.
    apply works_rd; [exact Hw|exact Hs|]. intros s1 G1 _. cbv beta. rewrite pbind_if.
    destruct (negb _); [apply H; [apply cuts_tl; exact Hw|exact G1]|].
    match goal with |- works (pbind (pbind (rd ?f) ?g) ?h) _ _ => change (pbind (pbind (rd f) g) h) with (pbind (I := I) (rd f) (fun x => pbind (g x) h)) end.
    apply works_rd; [apply cuts_tl; exact Hw|exact G1|]. intros s2 G2 _. cbv beta. rewrite pbind_if. change rx_bidi_deque_size with 7%nat. fold (data_waiting s2).
    destruct (Nat.eqb_spec (length (data_waiting s2)) 7) as [E7|E7]; [apply H; [apply cuts_tl, cuts_tl; exact Hw|exact G2]|].
    unfold byte in Hd. destruct (id_carries B18 7 (64 * d + x)) as (cs & C1 & C2); [lia|change (2 ^ id_bits B18) with 16384; lia|].
    assert (CC : rbind (make_datagram_id B18 7 (Z.lor (Z.shiftl d 6) x)) encode_datagram = Ok cs).
    { rewrite Z.shiftl_mul_pow2, lor_add by (change (2 ^ 6) with 64; lia). replace (d * 2 ^ 6 + x) with (64 * d + x) by (change (2 ^ 6) with 64; lia). exact C1. }
    rewrite CC. cbn [local pbind].
    apply works_wr; [apply cuts_tl, cuts_tl; exact Hw|exact G2|]. intros s3 G3 L3. apply H; [apply cuts_tl, cuts_tl, cuts_tl; exact Hw|].
    assert (L2 : (length (data_waiting s2) <= 7)%nat) by (destruct G2 as [[T _] _]; open_talk T; exact Hdl).
    destruct G3 as ((T4 & S4 & B4) & Hl). split; [|exact Hl]. split; [|split; [exact S4|exact B4]].
    apply id_shaped in C1. change (datagram_size B18) with 3%nat in C1. open_talk T4. unfold talk. unfold data_waiting in *. cbn. close_talk.
    - apply Forall_app. split; [exact Hdy|]. constructor; [exact C1|constructor].
    - rewrite app_length. cbn [length]. lia.
  Qed.
  Lemma all_works : forall ds w s, Forall in_range ds -> Forall cuts_only w -> good s -> works (dyn_allP ds) w s.
  Proof.
    induction ds as [|a ds IH]; intros w s Hr Hw Hs; [apply works_done|]. inversion Hr as [|? ? Ha Hr']; subst.
    destruct (convert_point a Ha) as (Hc & Hb & Hx). cbn [dyn_allP]. rewrite Hc. apply push_works; auto.
  Qed.
  Lemma good_block : forall b s, good s -> good (Mk_st (set_block_dyn b (rxs s)) (app s) (pending s)).
  Proof. intros b s ((T & S & B) & L). split; [|exact L]. split; [exact T|]. split; [exact S|exact B]. Qed.
  Lemma datagram_works : forall ds w s, Forall in_range ds -> Forall cuts_only w -> good s -> works (datagramP ds) w s.
  Proof.
    intros ds w s Hr Hw Hs. unfold datagramP, fullP, emptyP.
    assert (T : forall w' s', Forall cuts_only w' -> good s' ->
      works (pbind (rd (fun r => block_dyn (r_bidi r))) (fun b : bool => if b then Done tt else dyn_allP ds)) w' s').
    { intros w' s' Hw' Hs'. apply works_rd; [exact Hw'|exact Hs'|]. intros s1 G1 _. destruct (block_dyn _); [apply works_done|].
      apply all_works; [exact Hr|apply cuts_tl; exact Hw'|exact G1]. }
    apply works_rd; [exact Hw|exact Hs|]. intros s1 G1 _. rewrite pbind_if. destruct (_ =? _)%nat.
    - apply works_wr; [apply cuts_tl; exact Hw|exact G1|]. intros s2 G2 _. apply T; [apply cuts_tl, cuts_tl; exact Hw|apply good_block; exact G2].
    - match goal with |- works (pbind (pbind (rd ?f) ?g) ?h) _ _ => change (pbind (pbind (rd f) g) h) with (pbind (I := I) (rd f) (fun x => pbind (g x) h)) end.
      apply works_rd; [apply cuts_tl; exact Hw|exact G1|]. intros s2 G2 _. cbv beta. rewrite pbind_if. destruct (_ =? _)%nat; [|apply T; [apply cuts_tl, cuts_tl; exact Hw|exact G2]].
      match goal with |- works (pbind (pbind (wr ?f) ?g) ?h) _ _ => change (pbind (pbind (wr f) g) h) with (pbind (I := I) (wr f) (fun x => pbind (g x) h)) end.
      apply works_wr; [apply cuts_tl, cuts_tl; exact Hw|exact G2|]. intros s3 G3 _. cbv beta.
      match goal with |- works (pbind (pbind (rd ?f) ?g) ?h) _ _ => change (pbind (pbind (rd f) g) h) with (pbind (I := I) (rd f) (fun x => pbind (g x) h)) end.
      apply works_rd; [apply cuts_tl, cuts_tl, cuts_tl; exact Hw|apply good_block; exact G3|]. intros s4 G4 _. cbv beta.
      apply push_works; [exact (proj2 (proj2 (proj1 G4)))|lia|apply cuts_tl, cuts_tl, cuts_tl, cuts_tl; exact Hw|exact G4|exact T].
  Qed.
  Lemma datagram_defined : forall s ds w, reached E s -> cutout s -> Forall in_range ds -> Forall (Forall (fun o => o = OBiDi1 \/ o = OBiDi2)) w ->
    exists o s' es, preempted E (datagramP ds) w s = Ok (o, s', es).
  Proof.
    intros s ds w Hr Hc Hd Hw. destruct (datagram_works ds w s Hd Hw) as ([[o s'] es] & H); [|eauto].
    split; [|exact (proj1 (proj2 (heard_reached E s Hr Hc)))].
    destruct Hr as (i & os & es & H). clear Hc. revert s es H. induction os as [|o os IH] using rev_ind; intros s es H; [inversion H; subst; apply (fit_0 E)|].
    apply (run_snoc E) in H. destruct H as (s1 & e1 & b & e2 & H1 & H2). exact (fit_step E o _ _ _ _ H2 (IH _ _ H1)).
  Qed.
End Defined.
