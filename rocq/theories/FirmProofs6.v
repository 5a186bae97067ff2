(** The queues while executions are interrupted, and sessions. *)
From Verif Require Import Prelude Address Instruction Checksum Datagram RxState Rx ZBits RxLogic RxInv SpecCodec SpecRx RxBitProofs RxBitProofs2 RxBitProofs3 RxBitProofs4
  SpecExec ExecProofs SpecConf SpecCv CvProofs2 SaneProofs SpecLogon LogonProofs LogonProofs2 LogonProofs3 LogonProofs4
  SpecBidi BidiProofs BidiProofs2 BidiProofs3 BidiProofs4 BidiProofs6 BidiProofs8 BidiProofs9 OfferProofs SpecSafe SafeProofs SafeProofs2 Preempt SpecPreempt
  PreemptProofs PreemptProofs2 PreemptProofs3 PreemptProofs4 StaleProofs TellProofs TellProofs3 SpecFirm FirmProofs FirmProofs2 FirmProofs3.

Section Hoare.
  Context {I : Type} (E : Env I).
  Implicit Types s : st I.

  Definition lasting (R : rx -> Prop) : Prop := (forall r, R r -> talk r) /\ forall o, handler o -> holds R (step E o).
  Lemma lasting_run : forall R, lasting R -> forall os s s' es, Forall handler os -> run E os s = Ok (tt, s', es) -> R (rxs s) -> R (rxs s').
  Proof.
    intros R HR. induction os as [|o os IH]; intros s s' es Hh H Hs; [inversion H; subst; exact Hs|]. inversion Hh as [|? ? K1 K2]; subst.
    cbn [run] in H. apply bind_inv in H. destruct H as (b & s1 & e1 & e2 & H1 & H2 & _). exact (IH _ _ _ K2 H2 (proj2 HR _ K1 _ _ _ _ H1 Hs)).
  Qed.
  Notation fed := (fun t : st I => talk (rxs t)).
  Definition triple (R : rx -> Prop) {A} (P : prog (I := I) A) (Q : rx -> Prop) : Prop :=
    forall w s o s' es, Forall (Forall handler) w -> preempted E P w s = Ok (o, s', es) -> R (rxs s) -> Q (rxs s') /\ Forall fed (passed E P w s).
  Lemma triple_Done : forall (R : rx -> Prop) A (a : A), (forall r, R r -> talk r) -> triple R (Done a) R.
  Proof. intros R A a K w s o s' es Hw H Hs. inversion H; subst. split; [exact Hs|]. constructor; [exact (K _ Hs)|constructor]. Qed.
  Lemma passed_pbind : forall F A C (P : prog (I := I) A) (k : A -> prog C) w s a sn sv s1 e1, preempted E P w s = Ok ((a, sn, sv), s1, e1) ->
    Forall F (passed E P w s) -> Forall F (passed E (k a) (skipn (length sn) w) s1) -> Forall F (passed E (pbind P k) w s).
  Proof.
    intros F A C P k. induction P as [a|B m h IH]; intros w s a' sn sv s1 e1 H F1 F2.
    - inversion H; subst. exact F2.
    - apply preempted_inv in H. destruct H as (t1 & f1 & b & t2 & f2 & a0 & sn1 & sv1 & f3 & K1 & K2 & K3 & Ho & ->). injection Ho as -> -> ->.
      cbn [passed pbind] in F1 |- *. rewrite K1, K2 in *. inversion F1 as [|? ? G1 G2]; subst. inversion G2 as [|? ? G3 G4]; subst.
      constructor; [exact G1|]. constructor; [exact G3|]. apply (IH b _ _ _ _ _ _ _ K3 G4). cbn [length] in F2.
      replace (skipn (S (length sn1)) w) with (skipn (length sn1) (tl w)) in F2 by (destruct w; [rewrite !skipn_nil; reflexivity|reflexivity]). exact F2.
  Qed.
  Lemma triple_bind : forall (R S Q : rx -> Prop) A C (P : prog A) (k : A -> prog C), triple R P S -> (forall a, triple S (k a) Q) -> triple R (pbind P k) Q.
  Proof.
    intros R S Q A C P k HP Hk w s o s' es Hw H Hs. apply preempted_pbind in H. destruct H as (a & sn1 & sv1 & s1 & e1 & c & sn2 & sv2 & e2 & H1 & H2 & _).
    destruct (HP _ _ _ _ _ Hw H1 Hs) as [K1 K2]. destruct (Hk a _ _ _ _ _ (handlers_skipn (length sn1) _ Hw) H2 K1) as [K3 K4].
    split; [exact K3|]. exact (passed_pbind _ _ _ _ _ _ _ _ _ _ _ _ H1 K2 K4).
  Qed.
  Lemma triple_act : forall (R Q : rx -> Prop) A B (m : M B) (k : B -> prog A), lasting R ->
    (forall s b s' es, R (rxs s) -> m s = Ok (b, s', es) -> exists S : rx -> Prop, S (rxs s') /\ triple S (k b) Q) -> triple R (Act B m k) Q.
  Proof.
    intros R Q A B m k HR Hm w s o s' es Hw H Hs. apply preempted_inv in H. destruct H as (s1 & e1 & b & s2 & e2 & a & sn & sv & e3 & H1 & H2 & H3 & _).
    pose proof (lasting_run R HR _ _ _ _ (handlers_hd _ Hw) H1 Hs) as Hs1.
    destruct (Hm _ _ _ _ Hs1 H2) as (S & K1 & K2). destruct (K2 _ _ _ _ _ (handlers_tl _ Hw) H3 K1) as [K3 K4]. split; [exact K3|].
    cbn [passed]. rewrite H1, H2. constructor; [exact (proj1 HR _ Hs)|]. constructor; [exact (proj1 HR _ Hs1)|exact K4].
  Qed.
  Lemma triple_acts : forall (R : rx -> Prop) A (P : prog A), lasting R -> acts (fun B m => holds R m) P -> triple R P R.
  Proof.
    intros R A P HR. induction P as [a|B m k IH]; intros HP; [apply triple_Done, HR|]. destruct HP as [Hm HP].
    apply triple_act; [exact HR|]. intros s b s' es Hs H. exists R. split; [exact (Hm _ _ _ _ H Hs)|exact (IH b (HP b))].
  Qed.
  Lemma triple_rd : forall (R : rx -> Prop) X (S : X -> rx -> Prop) (Q : rx -> Prop) A (f : rx -> X) (k : X -> prog A), lasting R -> (forall r, R r -> S (f r) r) -> (forall r, R r -> triple (S (f r)) (k (f r)) Q) ->
    triple R (pbind (rd f) k) Q.
  Proof.
    intros R X S Q A f k HR H1 H2. apply triple_act; [exact HR|]. intros s b s' es Hs H. inversion H; subst. exists (S (f (rxs s'))). split; [exact (H1 _ Hs)|exact (H2 _ Hs)].
  Qed.
  Lemma triple_wr : forall (R Q : rx -> Prop) f, lasting R -> (forall r, Q r -> talk r) -> (forall r, R r -> Q (f r)) -> triple R (wr f) Q.
  Proof.
    intros R Q f HR HQ H1. apply triple_act; [exact HR|]. intros s b s' es Hs H. inversion H; subst. exists Q. split; [exact (H1 _ Hs)|apply triple_Done; exact HQ].
  Qed.
  Lemma triple_local : forall (R Q : rx -> Prop) X A (m : res X) (k : X -> prog A), (forall x, m = Ok x -> triple R (k x) Q) -> triple R (pbind (local m) k) Q.
  Proof.
    intros R Q X A [x|u] k H; [exact (H x eq_refl)|]. intros w s o s' es Hw K Hs. apply preempted_inv in K.
    destruct K as (s1 & e1 & b & s2 & e2 & a & sn & sv & e3 & H1 & H2 & H3 & _). discriminate.
  Qed.
  Lemma triple_pre : forall (R R' Q : rx -> Prop) A (P : prog A), (forall r, R r -> R' r) -> triple R' P Q -> triple R P Q.
  Proof. intros R R' Q A P H H1 w s o s' es Hw K Hs. exact (H1 _ _ _ _ _ Hw K (H _ Hs)). Qed.

  Lemma lasting_talk : lasting talk.
  Proof. split; [auto|]. intros o _. apply talk_step. Qed.
  Definition few (n : nat) (r : rx) : Prop := talk r /\ (length (adr_deque (r_bidi r)) <= n)%nat.
  Lemma lasting_few : forall n, lasting (few n).
  Proof.
    intros n. split; [intros r [Hr _]; exact Hr|]. intros o Ho s b s' es H [H1 H2]. split; [exact (talk_step E o _ _ _ _ H H1)|].
    assert (N : o <> OExecute) by (intros ->; exact Ho).
    pose proof (flow_step E o s b s' es N H) as F. unfold flow in F. rewrite app_nil_r in F. unfold addresses_waiting in F. rewrite F, app_length in H2. lia.
  Qed.
  Definition clear_of (r : rx) : Prop := talk r /\ pom_deque (r_bidi r) = [].
  Definition idle (r : rx) : Prop := talk r /\ tos_deque (r_bidi r) = [].
  Lemma lasting_idle : lasting idle.
  Proof.
    split; [intros r [Hr _]; exact Hr|]. intros o Ho s b s' es H [H1 H2]. split; [exact (talk_step E o _ _ _ _ H H1)|].
    assert (A : keeps (fun r => tos_deque (r_bidi r)) (appPom E)) by keeps_tac. assert (B : keeps (fun r => tos_deque (r_bidi r)) (appDyn E)) by keeps_tac.
    assert (C : keeps (fun r => tos_deque (r_bidi r)) (appLogon E 2)) by keeps_tac. assert (D : holds (fun r => tos_deque (r_bidi r) = []) (appTos E)).
    { clear. intros s a s' es H Hs. unfold appTos in H. rewrite bind_get in H. rewrite Hs in H. inversion H; subst. exact Hs. }
    destruct o as [| | |t| |ds| | |j v]; try contradiction; cbn [step] in H; apply bind_inv in H; destruct H as (u & s1 & e1 & e2 & H & X & _); inversion X; subst; clear X.
    - rewrite <- H2. exact ((ltac:(keeps_tac) : keeps (fun r => tos_deque (r_bidi r)) (receive E t)) _ _ _ _ H).
    - rewrite <- H2. exact ((ltac:(keeps_tac) : keeps (fun r => tos_deque (r_bidi r)) (biDiChannel1 E)) _ _ _ _ H).
    - assert (K : forall (g : rx -> list (list Z)) (m : M (I := I) unit), keeps g m -> forall c, holds (fun r => g r = c) m) by (intros g m Km c q1 a q2 x Hq <-; exact (Km _ _ _ _ Hq)).
      assert (Z : holds (fun r => tos_deque (r_bidi r) = []) (biDiChannel2 E)).
      { unfold biDiChannel2. apply holds_bind; [apply holds_get|intro r]. cbv zeta. destruct (atyp (received (r_addrs r))); try apply holds_ret; try exact D;
          try (apply (K _ _ C)). all: destruct (addr_eqb _ _); [apply holds_bind; [apply holds_lift|intro i]; destruct i; first [exact (K _ _ A _)|exact (K _ _ B _)|exact (K _ _ C _)]|].
        all: destruct (_ && _); [first [exact (K _ _ A _)|exact (K _ _ B _)|exact (K _ _ C _)]|apply holds_ret]. }
      exact (Z _ _ _ _ H H2).
  Qed.
  Lemma lasting_clear : lasting clear_of.
  Proof.
    split; [intros r [Hr _]; exact Hr|]. intros o Ho s b s' es H [H1 H2]. split; [exact (talk_step E o _ _ _ _ H H1)|].
    assert (A : keeps (fun r => pom_deque (r_bidi r)) (appTos E)) by keeps_tac. assert (B : keeps (fun r => pom_deque (r_bidi r)) (appDyn E)) by keeps_tac.
    assert (C : keeps (fun r => pom_deque (r_bidi r)) (appLogon E 2)) by keeps_tac. assert (D : holds (fun r => pom_deque (r_bidi r) = []) (appPom E)).
    { clear. intros s a s' es H Hs. unfold appPom in H. rewrite bind_get in H. rewrite Hs in H.
      destruct (negb _); [inversion H; subst; exact Hs|]. destruct (negb _); inversion H; subst; exact Hs. }
    destruct o as [| | |t| |ds| | |j v]; try contradiction; cbn [step] in H; apply bind_inv in H; destruct H as (u & s1 & e1 & e2 & H & X & _); inversion X; subst; clear X.
    - rewrite <- H2. exact ((ltac:(keeps_tac) : keeps (fun r => pom_deque (r_bidi r)) (receive E t)) _ _ _ _ H).
    - rewrite <- H2. exact ((ltac:(keeps_tac) : keeps (fun r => pom_deque (r_bidi r)) (biDiChannel1 E)) _ _ _ _ H).
    - assert (K : forall (g : rx -> list (list Z)) (m : M (I := I) unit), keeps g m -> forall c, holds (fun r => g r = c) m) by (intros g m Km c q1 a q2 x Hq <-; exact (Km _ _ _ _ Hq)).
      assert (Z : holds (fun r => pom_deque (r_bidi r) = []) (biDiChannel2 E)).
      { unfold biDiChannel2. apply holds_bind; [apply holds_get|intro r]. cbv zeta. destruct (atyp (received (r_addrs r))); try apply holds_ret; try exact D;
          try (first [exact (K _ _ A _)|exact (K _ _ B _)|exact (K _ _ C _)]). all: destruct (addr_eqb _ _); [apply holds_bind; [apply holds_lift|intro i]; destruct i; try exact D; first [exact (K _ _ A _)|exact (K _ _ B _)|exact (K _ _ C _)]|].
        all: destruct (_ && _); [first [exact (K _ _ A _)|exact (K _ _ B _)|exact (K _ _ C _)]|apply holds_ret]. }
      exact (Z _ _ _ _ H H2).
  Qed.

  (** Queues that are not written *)
  Definition queues (r : rx) := (r_bidi r, logon_deque (r_logon r)).
  Lemma talk_queues : forall A (m : M (I := I) A), keeps queues m -> holds talk m.
  Proof.
    intros A m K s a s' es H Hs. apply K in H. unfold queues in H. injection H as H1 H2. unfold talk. rewrite H1, H2. exact Hs.
  Qed.
  Ltac tk := apply talk_queues; leaf_keeps.

  Lemma triple_adr : triple talk adrP talk.
  Proof.
    assert (Push : forall g, triple (few 0) (adrPushP g) talk).
    { intros g. unfold adrPushP. apply (triple_rd _ _ (fun _ => few 0)); [apply lasting_few|auto|]. intros r _. apply triple_local. intros hi Hhi. apply id_shaped in Hhi.
      apply (triple_bind _ (few 1)).
      - apply triple_wr; [apply lasting_few|unfold few; tauto|]. intros r0 [H0 H1]. open_talk H0. destruct (adr_deque (r_bidi r0)); [|cbn in H1; lia].
        split; [|cbn; lia]. unfold talk. cbn. close_talk; [repeat (apply Forall_cons; [assumption|]); apply Forall_nil|lia].
      - intros _. apply (triple_rd _ _ (fun _ => few 1)); [apply lasting_few|auto|]. intros r1 _. apply triple_local. intros lo Hlo. apply id_shaped in Hlo.
        apply triple_wr; [apply lasting_few|unfold few; tauto|]. intros r0 [H0 H1]. open_talk H0. unfold talk. cbn. rewrite app_length. cbn [length]. close_talk; [|lia].
        apply Forall_app. split; [assumption|]. apply Forall_cons; [exact Hlo|apply Forall_nil]. }
    unfold adrP. apply (triple_rd _ _ (fun _ => talk)); [apply lasting_talk|auto|]. intros r _. destruct (ch1_addr_enabled (r_conf r)); [|(apply triple_Done; auto)].
    cbn [negb]. apply (triple_rd _ _ (fun b => if b : bool then talk else few 0)); [apply lasting_talk| |].
    { intros r0 H0. destruct (length (adr_deque (r_bidi r0)) =? 0)%nat eqn:El; [|exact H0]. apply Nat.eqb_eq in El. split; [exact H0|lia]. }
    intros r0 _. destruct (negb _); [(apply triple_Done; auto)|].
    apply (triple_rd _ _ (fun _ => few 0)); [apply lasting_few|auto|]. intros r1 _. destruct (negb _); [apply Push|].
    apply (triple_rd _ _ (fun _ => few 0)); [apply lasting_few|auto|]. intros r2 _. destruct (_ =? 0); [apply Push|].
    apply (triple_rd _ _ (fun _ => few 0)); [apply lasting_few|auto|]. intros r3 _. destruct (_ && _); [apply Push|].
    apply (triple_pre _ talk); [intros x [Hx _]; exact Hx|(apply triple_Done; auto)].
  Qed.
  Lemma triple_search : triple talk searchP talk.
  Proof.
    unfold searchP. apply (triple_rd _ _ (fun b => if b : bool then talk else idle)); [apply lasting_talk| |].
    { intros r0 H0. destruct (length (tos_deque (r_bidi r0)) =? 0)%nat eqn:El; [|exact H0]. split; [exact H0|]. apply length_zero_iff_nil, Nat.eqb_eq, El. }
    intros r0 _. destruct (negb _); [(apply triple_Done; auto)|].
    apply (triple_rd _ _ (fun _ => idle)); [apply lasting_idle|auto|]. intros r1 _.
    apply (triple_rd _ _ (fun _ => idle)); [apply lasting_idle|auto|]. intros r2 _. cbv zeta.
    destruct (_ <=? _); [apply (triple_pre _ talk); [intros x [Hx _]; exact Hx|(apply triple_Done; auto)]|].
    apply (triple_rd _ _ (fun _ => idle)); [apply lasting_idle|auto|]. intros r3 _. apply triple_local. intros hi Hhi.
    apply (triple_rd _ _ (fun _ => idle)); [apply lasting_idle|auto|]. intros r4 _. apply triple_local. intros lo Hlo. apply triple_local. intros tm Htm.
    apply id_shaped in Hhi, Hlo, Htm. apply triple_wr; [apply lasting_idle|auto|]. intros r [H0 H1]. open_talk H0. unfold talk. cbn. rewrite H1. cbn [List.app length].
    close_talk; [|lia]. apply Forall_cons; [|apply Forall_nil]. exact (shaped_app 2 4 _ _ Hhi (shaped_app 2 2 _ _ Hlo Htm)).
  Qed.
  Lemma triple_pom : forall v, triple talk (pomP v) talk.
  Proof.
    intros v. unfold pomP. apply (triple_rd _ _ (fun _ => talk)); [apply lasting_talk|auto|]. intros r _. destruct (negb _); [(apply triple_Done; auto)|].
    apply (triple_bind _ clear_of).
    - apply triple_wr; [apply lasting_talk|unfold clear_of; tauto|]. intros r0 H0. split; [|reflexivity]. open_talk H0. unfold talk. cbn. close_talk; [apply Forall_nil|lia].
    - intros _. apply triple_local. intros dg Hd. apply id_shaped in Hd. apply triple_wr; [apply lasting_clear|auto|]. intros r0 [H0 H1]. open_talk H0. unfold talk. cbn.
      rewrite H1. cbn [List.app length]. close_talk; [|lia]. apply Forall_cons; [exact Hd|apply Forall_nil].
  Qed.
  Ltac tr1 :=
    lazymatch goal with
    | |- triple _ adrP _ => apply triple_adr
    | |- triple _ (pomP _) _ => apply triple_pom
    | |- triple _ (tipOffSearchP _) _ => idtac
    | |- triple _ (pbind _ _) _ => apply (triple_bind _ talk); [|intro]
    | |- triple _ (Done _) _ => (apply triple_Done; auto)
    | |- triple _ (local _) _ => apply triple_acts; [apply lasting_talk|apply acts_local; intro; tk]
    | |- triple _ (whenP ?b _) _ => unfold whenP
    | |- triple _ (if ?b then _ else _) _ => destruct b
    | |- triple _ (match ?x with _ => _ end) _ => destruct x
    | |- triple _ (let _ := _ in _) _ => cbv zeta
    | |- triple _ (act (modify (set_pom_deque []))) _ => apply triple_acts; [apply lasting_talk|apply acts_act, talk_clear]
    | |- triple _ (act _) _ => apply triple_acts; [apply lasting_talk|apply acts_act; tk]
    | |- triple _ ?P _ => let h := head_of P in unfold h
    end.
  Lemma triple_tipOff : triple talk (tipOffSearchP E) talk.
  Proof.
    unfold tipOffSearchP. apply (triple_bind _ talk); [repeat tr1|]. intros [].
    { cbn [pbind]. (apply triple_Done; auto). }
    apply triple_search.
  Qed.
  Lemma triple_init : triple talk (initP E) talk. Proof. repeat tr1. Qed.
  Lemma triple_run_cb : forall c v, triple talk (run_cbP E c v) talk. Proof. intros [b|b] v; repeat tr1. Qed.
  Ltac tr2 :=
    lazymatch goal with
    | |- triple _ (tipOffSearchP _) _ => apply triple_tipOff
    | |- triple _ (initP _) _ => apply triple_init
    | |- triple _ (run_cbP _ _ _) _ => apply triple_run_cb
    | |- _ => tr1
    end.
  Lemma triple_cvWrite : forall a b, triple talk (cvWriteP E a b) talk. Proof. intros. repeat tr2. Qed.
  Lemma triple_cvWriteBit : forall a b o, triple talk (cvWriteBitP E a b o) talk. Proof. intros. repeat tr2. Qed.
  Lemma triple_cvVerify : forall a b, triple talk (cvVerifyP E a b) talk. Proof. intros. repeat tr2. Qed.
  Lemma triple_cvVerifyBit : forall a b o, triple talk (cvVerifyBitP E a b o) talk. Proof. intros. repeat tr2. Qed.
  Ltac tr3 :=
    lazymatch goal with
    | |- triple _ (cvWriteP _ _ _) _ => apply triple_cvWrite
    | |- triple _ (cvWriteBitP _ _ _ _) _ => apply triple_cvWriteBit
    | |- triple _ (cvVerifyP _ _ _) _ => apply triple_cvVerify
    | |- triple _ (cvVerifyBitP _ _ _ _) _ => apply triple_cvVerifyBit
    | |- _ => tr2
    end.
  Lemma triple_cvLong : forall a o, triple talk (cvLongP E a o) talk. Proof. intros. repeat tr3. Qed.
  Lemma triple_cvShort : forall a o, triple talk (cvShortP E a o) talk. Proof. intros. repeat tr3. Qed.
  Lemma triple_service : triple talk (executeServiceP E) talk. Proof. repeat tr3. Qed.
  Ltac tr4 :=
    lazymatch goal with
    | |- triple _ (cvLongP _ _ _) _ => apply triple_cvLong
    | |- triple _ (cvShortP _ _ _) _ => apply triple_cvShort
    | |- _ => tr3
    end.
  Lemma triple_instruct : forall a o, triple talk (instructP E a o) talk. Proof. intros. repeat tr4. Qed.
  Ltac tr5 :=
    lazymatch goal with
    | |- triple _ (instructP _ _ _) _ => apply triple_instruct
    | |- triple _ (executeServiceP _) _ => apply triple_service
    | |- _ => tr4
    end.
  Lemma triple_handle : triple talk (handleP E) talk.
  Proof. unfold handleP. repeat tr5. Qed.
  Lemma triple_execute : triple talk (executeP E) talk.
  Proof.
    unfold executeP. apply (triple_bind _ talk); [repeat tr1|]. intros []; [(apply triple_Done; auto)|]. apply (triple_bind _ talk); [repeat tr1|]. intros []; [(apply triple_Done; auto)|].
    apply (triple_bind _ talk); [apply triple_handle|intro b]. apply (triple_bind _ talk); [|intro; (apply triple_Done; auto)].
    apply triple_acts; [apply lasting_talk|]. apply acts_act. apply talk_queues. unfold popFront. apply keeps_bind; [apply keeps_get|intro r].
    destruct (r_deque r); [apply keeps_fail|apply keeps_modify; reflexivity].
  Qed.
End Hoare.
