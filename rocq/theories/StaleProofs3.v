(** Which answers wait while a CV packet is executed. *)
From Verif Require Import Prelude Address Instruction SpecCodec Datagram RxState Rx RxLogic SpecRx SpecConf SpecCv SpecBidi RxBitProofs RxBitProofs4 ExecProofs
  ZBits CvProofs LogonProofs4 BidiProofs BidiProofs3 Preempt SpecPreempt PreemptProofs PreemptProofs2 PreemptProofs3 PreemptProofs4 SpecOffer OfferProofs2 SpecStale StaleProofs StaleProofs2.

Definition pom_state (r : rx) := (last_own_cv_packet (r_cv r), pom_deque (r_bidi r), service_mode (r_cv r), r_deque r).

Section Stages.
  Context {I : Type} (E : Env I).
  Variable p : list Z.
  Implicit Types s : st I.

  Definition quiet {A} (P : prog (I := I) A) : Prop := acts (fun B m => keeps pom_state m) P.
  Lemma quiet_flat : forall A (P : prog A), quiet P -> forall s a s1 es, flat P s = Ok (a, s1, es) ->
    pom_state (rxs s1) = pom_state (rxs s) /\ Forall (fun t => pom_state (rxs t) = pom_state (rxs s)) (stages P s).
  Proof.
    intros A P. induction P as [a|B m k IH]; intros HP s a' s1 es H; [inversion H; subst; split; [reflexivity|constructor]|].
    destruct HP as [Hm HP]. cbn [flat] in H. apply bind_inv in H. destruct H as (b & s2 & e1 & e2 & H1 & H2 & _).
    destruct (IH b (HP b) _ _ _ _ H2) as [K1 K2]. pose proof (Hm _ _ _ _ H1) as K. split; [congruence|].
    cbn [stages]. rewrite H1. constructor; [reflexivity|]. eapply Forall_impl; [|exact K2]. cbn beta. intros t Ht. congruence.
  Qed.
  Lemma stages_app : forall A C (P : prog A) (k : A -> prog C) s c s2 es, flat (pbind P k) s = Ok (c, s2, es) ->
    exists a s1 e1 e2, flat P s = Ok (a, s1, e1) /\ flat (k a) s1 = Ok (c, s2, e2) /\ stages (pbind P k) s = stages P s ++ stages (k a) s1.
  Proof.
    intros A C P k s c s2 es H. rewrite flat_pbind in H. apply bind_inv in H. destruct H as (a & s1 & e1 & e2 & H1 & H2 & _).
    exists a, s1, e1, e2. split; [exact H1|]. split; [exact H2|]. exact (stages_pbind _ _ _ _ _ _ _ _ H1).
  Qed.

  Definition last_cv s := last_own_cv_packet (r_cv (rxs s)).

  (** At most one answer is prepared *)
  Definition single {A} (P : prog (I := I) A) : Prop := forall s a s1 es, flat P s = Ok (a, s1, es) ->
    last_cv s1 = last_cv s /\
    Forall (fun t => last_cv t = last_cv s /\ (cv_waiting t = cv_waiting s \/ cv_waiting t = [] \/ cv_waiting t = cv_waiting s1)) (stages P s).
  Lemma quiet_state : forall s t, pom_state (rxs t) = pom_state (rxs s) ->
    last_cv t = last_cv s /\ cv_waiting t = cv_waiting s /\ service_mode (r_cv (rxs t)) = service_mode (r_cv (rxs s)) /\ r_deque (rxs t) = r_deque (rxs s).
  Proof. intros s t H. unfold pom_state in H. injection H as H1 H2 H3 H4. auto. Qed.
  Lemma single_quiet : forall A (P : prog A), quiet P -> single P.
  Proof.
    intros A P HP s a s1 es H. destruct (quiet_flat _ _ HP _ _ _ _ H) as [K1 K2]. apply quiet_state in K1. split; [apply K1|].
    eapply Forall_impl; [|exact K2]. intros t Ht. apply quiet_state in Ht. destruct Ht as (X1 & X2 & _). auto.
  Qed.
  Lemma single_before : forall A C (P : prog A) (k : A -> prog C), quiet P -> (forall a, single (k a)) -> single (pbind P k).
  Proof.
    intros A C P k HP Hk s c s2 es H. apply stages_app in H. destruct H as (a & s1 & e1 & e2 & H1 & H2 & ->).
    destruct (quiet_flat _ _ HP _ _ _ _ H1) as [K1 K2]. destruct (Hk a _ _ _ _ H2) as [K3 K4].
    apply quiet_state in K1. destruct K1 as (X1 & X2 & _). split; [congruence|]. apply Forall_app. split.
    - eapply Forall_impl; [|exact K2]. intros t Ht. apply quiet_state in Ht. destruct Ht as (Y1 & Y2 & _). auto.
    - eapply Forall_impl; [|exact K4]. cbn beta. intros t (Y1 & Y2). rewrite X1, X2 in *. auto.
  Qed.
  Lemma single_after : forall A C (P : prog A) (k : A -> prog C), single P -> (forall a, quiet (k a)) -> single (pbind P k).
  Proof.
    intros A C P k HP Hk s c s2 es H. apply stages_app in H. destruct H as (a & s1 & e1 & e2 & H1 & H2 & ->).
    destruct (quiet_flat _ _ (Hk a) _ _ _ _ H2) as [K1 K2]. destruct (HP _ _ _ _ H1) as [K3 K4].
    apply quiet_state in K1. destruct K1 as (X1 & X2 & _). split; [congruence|]. apply Forall_app. split.
    - eapply Forall_impl; [|exact K4]. cbn beta. intros t (Y1 & Y2). rewrite X2. auto.
    - eapply Forall_impl; [|exact K2]. intros t Ht. apply quiet_state in Ht. destruct Ht as (Y1 & Y2 & _). rewrite X2. split; [congruence|auto].
  Qed.
  Ltac q := unfold quiet; acts_tac; leaf_keeps.
  Lemma single_pom : forall v, single (pomP v).
  Proof.
    intros v. unfold pomP. apply single_before; [q|intros []; cbn [negb]; [|apply single_quiet; q]].
    destruct (rbind (make_datagram_id B12 0 v) encode_datagram) as [d|u]; cbn [local pbind]; intros s a s1 es H.
    - cbn in H. inversion H; subst. split; [reflexivity|]. cbn [stages wr act pbind modify]. repeat (apply Forall_cons; [split; [reflexivity|auto]|]). apply Forall_nil.
    - discriminate.
  Qed.
  Lemma quiet_init : quiet (initP E). Proof. q. Qed.
  Lemma quiet_reinit : forall a, quiet (reinitP E a).
  Proof. intros a. unfold reinitP, whenP. destruct (existsb _ _); [apply quiet_init|exact Logic.I]. Qed.
  Lemma single_cb_byte : forall b v, single (cb_byteP E b v).
  Proof. intros b v. unfold cb_byteP. apply single_before; [q|intros []; cbn [negb]; [|apply single_pom]]. apply single_quiet. q. Qed.
  Lemma single_cb_bit : forall b v, single (cb_bitP E b v).
  Proof. intros b v. unfold cb_bitP. apply single_before; [q|intros []; cbn [negb]; [|apply single_pom]]. apply single_quiet. q. Qed.
  Lemma single_cb : forall c v, single (run_cbP E c v).
  Proof. intros [b|b] v; [apply single_cb_byte|apply single_cb_bit]. Qed.
  Lemma single_async : forall e c, single (call_asyncP E e c).
  Proof. intros e c. unfold call_asyncP. apply single_before; [q|intros [v|]; [apply single_cb|apply single_quiet; q]]. Qed.
  Ltac single1 :=
    lazymatch goal with
    | |- single (call_asyncP _ _ _) => apply single_async
    | |- single (cb_byteP _ _ _) => apply single_cb_byte
    | |- single (cb_bitP _ _ _) => apply single_cb_bit
    | |- single (if ?b then _ else _) => destruct b
    | |- single (Done _) => apply single_quiet; q
    end.
  Lemma single_cvWrite : forall a b, single (cvWriteP E a b).
  Proof.
    intros a b. unfold cvWriteP. apply single_before; [q|intros l]. destruct (l && _); [apply single_quiet; q|].
    apply single_after; [|intros _; apply quiet_reinit]. destruct (e_async_writable E); [single1|]. apply single_before; [q|intros v; single1].
  Qed.
  Lemma single_cvWriteBit : forall a b o, single (cvWriteBitP E a b o).
  Proof.
    intros a b o. unfold cvWriteBitP. apply single_before; [q|intros l]. destruct (l && _); [apply single_quiet; q|].
    apply single_after; [|intros _; apply quiet_reinit]. destruct (e_async_writable E); [single1|]. apply single_before; [q|intros v; single1].
  Qed.
  Lemma single_cvVerify : forall a b, single (cvVerifyP E a b).
  Proof.
    intros a b. unfold cvVerifyP. apply single_before; [q|intros []]; [apply single_quiet; q|].
    destruct (e_async_readable E); [single1|]. apply single_before; [q|intros v; single1].
  Qed.
  Lemma single_cvVerifyBit : forall a b o, single (cvVerifyBitP E a b o).
  Proof.
    intros a b o. unfold cvVerifyBitP. apply single_before; [q|intros []]; [apply single_quiet; q|].
    destruct (e_async_readable E); [single1|]. apply single_before; [q|intros v; single1].
  Qed.

  (** Execution of a CV packet *)
  Definition cv_stage s s1 t : Prop := (last_cv t = last_cv s /\ cv_waiting t = cv_waiting s) \/
    (last_cv t = p /\ (cv_waiting t = cv_waiting s \/ cv_waiting t = [] \/ cv_waiting t = cv_waiting s1)).
  Definition staged {A} (P : prog (I := I) A) : Prop := forall s a s1 es,
    hd_error (r_deque (rxs s)) = Some p -> service_mode (r_cv (rxs s)) = false ->
    flat P s = Ok (a, s1, es) -> Forall (cv_stage s s1) (stages P s) /\ cv_stage s s1 s1.
  Lemma staged_quiet : forall A (P : prog A), quiet P -> staged P.
  Proof.
    intros A P HP s a s1 es _ _ H. destruct (quiet_flat _ _ HP _ _ _ _ H) as [K1 K2].
    split; [|apply quiet_state in K1; left; split; apply K1].
    eapply Forall_impl; [|exact K2]. intros t Ht. apply quiet_state in Ht. left. split; apply Ht.
  Qed.
  Lemma staged_when : forall A C (P : prog A) (k : A -> prog C) (R : A -> Prop), quiet P ->
    (forall s a s1 es, hd_error (r_deque (rxs s)) = Some p -> service_mode (r_cv (rxs s)) = false -> flat P s = Ok (a, s1, es) -> R a) ->
    (forall a, R a -> staged (k a)) -> staged (pbind P k).
  Proof.
    intros A C P k R HP HR Hk s c s2 es Hp Hs H. apply stages_app in H. destruct H as (a & s1 & e1 & e2 & H1 & H2 & ->).
    destruct (quiet_flat _ _ HP _ _ _ _ H1) as [K1 K2]. apply quiet_state in K1. destruct K1 as (X1 & X2 & X3 & X4).
    assert (K := Hk a (HR _ _ _ _ Hp Hs H1) s1 c s2 e2 ltac:(congruence) ltac:(congruence) H2). destruct K as [K KE].
    split; [|unfold cv_stage in *; rewrite X1, X2 in KE; exact KE]. apply Forall_app. split.
    - eapply Forall_impl; [|exact K2]. intros t Ht. apply quiet_state in Ht. left. split; apply Ht.
    - eapply Forall_impl; [|exact K]. unfold cv_stage. rewrite X1, X2. auto.
  Qed.
  Lemma staged_bind : forall A C (P : prog A) (k : A -> prog C), quiet P -> (forall a, staged (k a)) -> staged (pbind P k).
  Proof. intros A C P k HP Hk. apply (staged_when _ _ P k (fun _ => True)); auto. Qed.
  Lemma staged_cvLong : forall C a o (k : unit -> prog C), (forall u, quiet (k u)) -> staged (pbind (cvLongP E a o) k).
  Proof.
    intros C a o k Hk. unfold cvLongP.
    assert (HC : forall (rest : prog unit), single rest -> staged (pbind (pbind countOwnP (fun _ => rest)) k)).
    { intros rest Hr s c s2 es Hp Hs H. apply stages_app in H. destruct H as (u & s1 & e1 & e2 & H1 & H2 & ->).
      apply stages_app in H1. destruct H1 as (u0 & s0 & e3 & e4 & H0 & H1 & ->).
      destruct (quiet_flat _ _ (Hk u) _ _ _ _ H2) as [K1 K2]. apply quiet_state in K1. destruct K1 as (X1 & X2 & _).
      destruct (Hr _ _ _ _ H1) as [K3 K4].
      assert (Q : last_cv s0 = p /\ (cv_waiting s0 = cv_waiting s \/ cv_waiting s0 = []) /\
        Forall (fun t => (last_cv t = last_cv s \/ last_cv t = p) /\ cv_waiting t = cv_waiting s) (stages countOwnP s)).
      { clear - Hp H0. unfold countOwnP, rd, wr, act in *. cbn [pbind flat stages] in *.
        unfold bind, gets, front, modify in *. destruct (r_deque (rxs s)) as [|x d] eqn:Ed; [discriminate|]. cbn [hd_error] in Hp. injection Hp as ->.
        destruct (list_eqb (last_own_cv_packet (r_cv (rxs s))) p) eqn:El; cbn [pbind flat stages] in *.
        - cbn in H0. inversion H0; subst. apply list_eqb_eq in El. split; [exact El|]. split; [left; reflexivity|]. repeat (apply Forall_cons; [split; [auto|reflexivity]|]). apply Forall_nil.
        - unfold bind in H0. cbn in H0. rewrite Ed in H0. cbn in H0. inversion H0; subst. cbn. rewrite Ed. split; [reflexivity|]. split; [right; reflexivity|].
          repeat (apply Forall_cons; [split; [auto|reflexivity]|]). apply Forall_nil. }
      destruct Q as (Q1 & Q2 & Q3). split; [|right; split; [congruence|auto]]. rewrite Forall_app, Forall_app. split; [split|].
      - eapply Forall_impl; [|exact Q3]. cbn beta. intros t [[Y1|Y1] Y2]; [left|right]; auto.
      - eapply Forall_impl; [|exact K4]. cbn beta. intros t [Y1 Y2]. right. split; [congruence|]. rewrite X2.
        destruct Y2 as [Y2|[Y2|Y2]]; auto. destruct Q2 as [Q2|Q2]; rewrite Y2, Q2; auto.
      - eapply Forall_impl; [|exact K2]. intros t Ht. apply quiet_state in Ht. destruct Ht as (Y1 & Y2 & _). right. split; [congruence|]. rewrite X2. auto. }
    assert (HB : forall A B D (P : prog A) (f : A -> prog B) (g : B -> prog D), quiet P -> (forall a, staged (pbind (f a) g)) ->
      staged (pbind (pbind P f) g)).
    { clear. intros A B D P f g HP Hf. intros s c s2 es Hp Hs H. apply stages_app in H. destruct H as (b & s1 & e1 & e2 & H1 & H2 & ->).
      apply stages_app in H1. destruct H1 as (a & s0 & e3 & e4 & H0 & H1 & ->).
      destruct (quiet_flat _ _ HP _ _ _ _ H0) as [K1 K2]. apply quiet_state in K1. destruct K1 as (X1 & X2 & X3 & X4).
      assert (F : exists e, flat (pbind (f a) g) s0 = Ok (c, s2, e)).
      { rewrite flat_pbind. unfold bind. rewrite H1, H2. eexists. reflexivity. }
      destruct F as (e & F). specialize (Hf a s0 _ _ _ ltac:(congruence) ltac:(congruence) F). destruct Hf as [Hf HE].
      split; [|unfold cv_stage in *; rewrite X1, X2 in HE; exact HE].
      rewrite (stages_pbind _ _ _ _ _ _ _ _ H1) in Hf. rewrite <- app_assoc. apply Forall_app. split.
      - eapply Forall_impl; [|exact K2]. intros t Ht. apply quiet_state in Ht. left. split; apply Ht.
      - eapply Forall_impl; [|exact Hf]. unfold cv_stage. rewrite X1, X2. auto. }
    apply HB; [q|intros []].
    { cbn [pbind]. apply staged_quiet, Hk. }
    apply HC.
    apply single_before; [q|intros sm]. apply single_before; [q|intros skip]. destruct skip; [apply single_quiet; q|].
    apply single_before; [q|intros b0]. apply single_before; [q|intros b1]. cbv zeta.
    repeat match goal with
      | |- single (pbind (byt _ _) _) => apply single_before; [q|intro]
      | |- single (pbind countP _) => apply single_before; [q|intro]
      | |- single (if ?b then _ else _) => destruct b
      | |- single (Done _) => apply single_quiet; q
      | |- single (cvVerifyP _ _ _) => apply single_cvVerify
      | |- single (cvVerifyBitP _ _ _ _) => apply single_cvVerifyBit
      | |- single (cvWriteP _ _ _) => apply single_cvWrite
      | |- single (cvWriteBitP _ _ _ _) => apply single_cvWriteBit
      | |- single (let _ := _ in _) => cbv zeta
      end.
  Qed.

  Lemma staged_instruct : forall a o, decode_instruction (skipn o p) = Ok ICvLong -> staged (instructP E a o).
  Proof.
    intros a o Hi. unfold instructP. apply (staged_when _ _ _ _ (fun i => i = ICvLong)); [clear Hi; q| |].
    - intros s i s1 es Hp _ H. unfold act in H. cbn [flat] in H. apply bind_inv in H. destruct H as (b & s2 & e1 & e2 & H1 & H2 & _).
      inversion H2; subst. unfold front_instruction in H1. destruct (r_deque (rxs s)) as [|x d]; [discriminate|]. cbn [hd_error] in Hp. injection Hp as ->.
      rewrite Hi in H1. inversion H1; subst. reflexivity.
    - intros i ->. apply staged_cvLong. intros _. exact Logic.I.
  Qed.
  Lemma staged_operations : cv_packet p -> staged (executeOperationsP E).
  Proof.
    intros Hc. unfold executeOperationsP. apply (staged_when _ _ _ _ (fun a => decode_address p = Ok a)); [q| |].
    - intros s i s1 es Hp _ H. unfold act in H. cbn [flat] in H. apply bind_inv in H. destruct H as (b & s2 & e1 & e2 & H1 & H2 & _).
      inversion H2; subst. unfold front_address in H1. destruct (r_deque (rxs s)) as [|x d]; [discriminate|]. cbn [hd_error] in Hp. injection Hp as ->.
      destruct (decode_address p); [|discriminate]. inversion H1; subst. reflexivity.
    - assert (HA : forall a o, decode_instruction (skipn o p) = Ok ICvLong -> staged (executeOperationsAddressedP E a o)).
      { intros a o Hi. unfold executeOperationsAddressedP. destruct (aval a =? 0); [apply staged_instruct; exact Hi|].
        apply staged_bind; [q|intros own]. apply staged_bind; [destruct own; q|intros own1]. apply staged_bind; [destruct own1; q|intros own2].
        destruct own2; [apply staged_instruct; exact Hi|]. apply staged_bind; [q|intros []]; [|apply staged_quiet; q].
        apply staged_bind; [q|intros x]. apply staged_instruct. exact Hi. }
      assert (HI : forall o, 0xE0 <= nth o p 0 < 0xF0 -> decode_instruction (skipn o p) = Ok ICvLong).
      { intros o Ho. rewrite nth_skipn in Ho. destruct (skipn o p) as [|b r]; [cbn in Ho; lia|]. cbn [hd] in Ho. cbn [decode_instruction].
        f_equal. apply classify_cv; [unfold byte; lia|exact Ho]. }
      intros a Hd. clear - Hd Hc HA HI.
      assert (D : match atyp a with
                  | ATBroadcast | ATShort => 0xE0 <= nth 1 p 0 < 0xF0
                  | ATLong => 0xE0 <= nth 2 p 0 < 0xF0
                  | _ => True
                  end).
      { clear HA HI. unfold cv_packet in Hc. unfold decode_address in Hd. destruct p as [|b r]; [discriminate|]. cbn [hd] in Hc.
        destruct (b =? 0) eqn:B1; [inversion Hd; subst; cbn [atyp]; replace ((128 <=? b) && (b <=? 252)) with false in Hc; [exact Hc|lia]|].
        destruct (b <=? 127) eqn:B2; [inversion Hd; subst; cbn [atyp]; replace ((128 <=? b) && (b <=? 252)) with false in Hc; [exact Hc|lia]|].
        destruct (b <=? 191) eqn:B3; [inversion Hd; subst; exact Logic.I|].
        destruct (b <=? 231) eqn:B4.
        { destruct r as [|c r]; [discriminate|]. inversion Hd; subst. cbn [atyp]. replace ((128 <=? b) && (b <=? 252)) with true in Hc; [exact Hc|lia]. }
        destruct (b <=? 252); [inversion Hd; subst; exact Logic.I|]. destruct (b =? 253); [inversion Hd; subst; exact Logic.I|].
        destruct (b =? 254); inversion Hd; subst; exact Logic.I. }
      destruct (atyp a); try (apply staged_quiet; exact Logic.I); apply HA, HI; exact D.
  Qed.
  Lemma staged_handle : cv_packet p -> staged (handleP E).
  Proof.
    intros Hc. unfold handleP.
    apply staged_bind; [q|intros _]. apply staged_bind; [q|intros _]. apply staged_bind; [q|intros _]. apply staged_bind; [q|intros _].
    apply (staged_when _ _ _ _ (fun sm => sm = false)); [q| |intros sm ->; apply staged_operations; exact Hc].
    intros s b s1 es _ Hs H. cbn in H. inversion H; subst. exact Hs.
  Qed.
End Stages.
