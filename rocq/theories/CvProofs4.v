(** CV access by packets: lock, short form, CV numbers *)
From Verif Require Import Prelude Address Instruction Datagram ZBits SpecCodec RxState Rx CodecProofs CodecProofs2 RxLogic SpecRx RxBitProofs
  RxBitProofs3 RxBitProofs4 SpecExec ExecProofs SpecConf ConfProofs ConfProofs2 SpecCv CvProofs CvProofs2 CvProofs3.

Section Split.
  Context {I : Type} (E : Env I).
  Implicit Types s : st I.

  (** What an execution consists of *)
  Lemma execute_cases : forall s b s' es, reached E s -> execute E s = Ok (b, s', es) ->
    (b = false /\ s' = s /\ es = [] /\ forall p q, ~ ready s p q) \/
    exists p q s1 s2 e1 e2, ready s p q /\ Forall byte p /\ (3 <= length p)%nat /\
      hk (rxs s1) = hk (rxs s) /\ pending s1 = pending s /\ storing s e1 /\ es = e1 ++ e2 /\ s' = pop q s2 /\
      r_deque (rxs s1) = p :: q /\
      executeCommand E s1 = Ok (b, s2, e2) /\
      ((in_service s = true /\ exists u, executeService E s1 = Ok (u, s2, e2)) \/
       (in_service s = false /\ for_locos p /\ b = true /\ exists n u, acts_as (r_addrs (rxs s)) p n /\ dispatch E n (body_of p) s1 = Ok (u, s2, e2)) \/
       (in_service s = false /\ ~ (for_locos p /\ exists n, acts_as (r_addrs (rxs s)) p n) /\ s2 = s1 /\ e2 = [] /\ b = false)).
  Proof.
    intros s b s' es Hre H.
    destruct (f_packet_end (r_fsm (rxs s))) eqn:Ef.
    { left. rewrite execute_gate in H by auto. assert (b = false) as -> by congruence. assert (s' = s) as -> by congruence.
      assert (es = []) as -> by congruence. repeat split. intros p q [Hx _]. congruence. }
    destruct (r_deque (rxs s)) as [|p q] eqn:Ed.
    { left. rewrite execute_gate in H by auto. assert (b = false) as -> by congruence. assert (s' = s) as -> by congruence.
      assert (es = []) as -> by congruence. repeat split. intros p q [_ Hx]. congruence. }
    right. assert (ready s p q) as Hr by (split; assumption).
    destruct (reached_ready E s p q Hre Hr) as [Hb Hl].
    destruct (execute_split E s p q Hr) as (s1 & e1 & Hk & Hp & Hs & He). rewrite H in He.
    assert (r_cv (rxs s1) = r_cv (rxs s)) as Hcv by (unfold hk in Hk; congruence).
    assert (r_addrs (rxs s1) = r_addrs (rxs s)) as Had by (unfold hk in Hk; congruence).
    assert (r_deque (rxs s1) = p :: q) as Hd1 by (unfold hk in Hk; congruence).
    destruct (executeCommand E s1) as [[[b2 s2] e2]|] eqn:Ec; [|discriminate].
    assert (b2 = b) as -> by congruence.
    exists p, q, s1, s2, e1, e2. split; [exact Hr|]. split; [exact Hb|]. split; [exact Hl|]. split; [exact Hk|].
    split; [exact Hp|]. split; [exact Hs|]. split; [congruence|]. split; [congruence|]. split; [exact Hd1|].
    split; [exact Ec|].
    destruct (in_service s) eqn:Esv.
    - left. split; [reflexivity|]. unfold executeCommand in Ec. rewrite bind_get in Ec. unfold in_service in Esv.
      rewrite Hcv, Esv in Ec. exists b. exact Ec.
    - assert (in_service s1 = false) as Hsv1 by (unfold in_service in *; congruence). right.
      destruct (command_operations E s1 p q Hsv1 Hd1 Hb Hl) as [(Hf & n & Ha & Hx)|(Hno & Hx)]; rewrite Hx in Ec.
      + left. apply bind_inv in Ec. destruct Ec as (u & s3 & e3 & e4 & E1 & E2 & ->). unfold ret in E2.
        assert (s2 = s3) as -> by congruence. assert (e4 = []) as -> by congruence. rewrite app_nil_r.
        split; [reflexivity|]. split; [exact Hf|]. split; [congruence|]. exists n, u. rewrite <- Had. auto.
      + right. rewrite Had in Hno. repeat split; [exact Hno|congruence..].
  Qed.

  (** ** Access of a locked decoder *)

  Definition lockf (r : rx) := cvs_locked (r_conf r).
  Definition cv15 (x : access) : Prop := is_writing x = true /\ target x = 15 - 1.
  Definition calm {A} (f : M (I := I) A) : Prop := free f /\ keeps lockf f.
  Definition tight {A} (f : M (I := I) A) : Prop := forall s a s' es, f s = Ok (a, s', es) -> locked s = true ->
    Forall cv15 (accesses es).

  Lemma tight_free : forall A (f : M (I := I) A), free f -> tight f.
  Proof. intros A f Hf s a s' es H _. rewrite (free_nil _ _ _ _ _ _ Hf H). constructor. Qed.
  Lemma tight_calm : forall A B (f : M (I := I) A) (k : A -> M B), calm f -> (forall a, tight (k a)) -> tight (bind f k).
  Proof.
    intros A B f k [Hf1 Hf2] Hk s b s' es H Hl. apply bind_inv in H. destruct H as (a & s1 & e1 & e2 & H1 & H2 & ->).
    rewrite accesses_app, (free_nil _ _ _ _ _ _ Hf1 H1). apply (Hk _ _ _ _ _ H2).
    apply Hf2 in H1. unfold lockf in H1. unfold locked in *. congruence.
  Qed.
  Lemma tight_then : forall A B (f : M (I := I) A) (k : A -> M B), tight f -> (forall a, free (k a)) -> tight (bind f k).
  Proof.
    intros A B f k Hf Hk s b s' es H Hl. apply bind_inv in H. destruct H as (a & s1 & e1 & e2 & H1 & H2 & ->).
    rewrite accesses_app, (free_nil _ _ _ _ _ _ (Hk a) H2), app_nil_r. exact (Hf _ _ _ _ H1 Hl).
  Qed.

  Lemma tight_perm : forall l, Forall cv15 (filter (permitted true) l).
  Proof.
    intros l. apply Forall_forall. intros x Hx. apply filter_In in Hx. destruct Hx as [_ Hx].
    unfold permitted in Hx. cbn [negb orb] in Hx. apply andb_true_iff in Hx. destruct Hx as [H1 H2].
    apply Z.eqb_eq in H2. split; [exact H1|rewrite H2; reflexivity].
  Qed.
  Lemma tight_verify : forall a v, tight (cvVerify E a v).
  Proof. intros a v s u s' es H Hl. rewrite (cvVerify_acc _ _ _ _ _ _ _ H), Hl. apply tight_perm. Qed.
  Lemma tight_verifyBit : forall a v k, tight (cvVerifyBit E a v k).
  Proof. intros a v k s u s' es H Hl. rewrite (cvVerifyBit_acc _ _ _ _ _ _ _ _ H), Hl. apply tight_perm. Qed.
  Lemma tight_write : forall a v, tight (cvWrite E a v).
  Proof. intros a v s u s' es H Hl. rewrite (cvWrite_acc _ _ _ _ _ _ _ H), Hl. apply tight_perm. Qed.
  Lemma tight_writeBit : forall a v k, tight (cvWriteBit E a v k).
  Proof. intros a v k s u s' es H Hl. rewrite (cvWriteBit_acc _ _ _ _ _ _ _ _ H), Hl. apply tight_perm. Qed.
  Lemma refused_write : forall a v s, locked s = true -> a <> 14 -> cvWrite E a v s = Ok (tt, s, []).
  Proof.
    intros a v s Hl Ha. unfold cvWrite. rewrite bind_get. unfold locked in Hl.
    rewrite Hl, (proj2 (Z.eqb_neq _ _) Ha). reflexivity.
  Qed.
  Lemma tight_refused : forall B a v (k : unit -> M (I := I) B), a <> 14 -> (forall u, tight (k u)) -> tight (bind (cvWrite E a v) k).
  Proof.
    intros B a v k Ha Hk s b s' es H Hl. unfold bind in H. rewrite (refused_write a v s Hl Ha) in H.
    destruct (k tt s) as [[[x s1] e1]|] eqn:Ek; [|discriminate]. cbn [List.app] in H.
    assert (es = e1) as -> by congruence. exact (Hk _ _ _ _ _ Ek Hl).
  Qed.

  Ltac calm_tac := split; [unfold free; emits_tac; reflexivity|keeps_tac].
  Ltac tight1 :=
    lazymatch goal with
    | |- tight (bind (cvWrite _ _ _) _) => apply tight_refused; [discriminate|intro]
    | |- tight (bind _ _) => apply tight_calm; [calm_tac|intro]
    | |- tight (cvVerify _ _ _) => apply tight_verify
    | |- tight (cvVerifyBit _ _ _ _) => apply tight_verifyBit
    | |- tight (cvWrite _ _ _) => apply tight_write
    | |- tight (cvWriteBit _ _ _ _) => apply tight_writeBit
    | |- tight (if ?b then _ else _) => destruct b
    | |- tight (match ?x with _ => _ end) => destruct x
    | |- tight (let _ := _ in _) => cbv zeta
    end.
  Ltac tight_tac := repeat tight1.
  Ltac free_tac := apply tight_free; unfold free; emits_tac; reflexivity.

  Lemma tight_cvLong : forall n bs, tight (cvLong E n bs).
  Proof. intros n bs. unfold cvLong. tight_tac; free_tac. Qed.
  Lemma tight_cvShort : forall n bs, tight (cvShort E n bs).
  Proof. intros n bs. unfold cvShort. tight_tac; free_tac. Qed.
  Lemma tight_registerMode : forall bs, tight (registerMode E bs).
  Proof. intros bs. unfold registerMode. tight_tac; free_tac. Qed.

  Lemma tight_dispatch : forall n bs, tight (dispatch E n bs).
  Proof.
    intros n bs. unfold dispatch. apply tight_calm; [calm_tac|]. intros [];
      try apply tight_cvLong; try apply tight_cvShort; try free_tac.
    unfold consistControl. tight_tac.
  Qed.
  Lemma tight_service : tight (executeService E).
  Proof.
    unfold executeService. do 3 (apply tight_calm; [calm_tac|intro]).
    apply tight_then; [|intros; unfold free; emits_tac].
    repeat match goal with |- tight (if ?b then _ else _) => destruct b end;
      try apply tight_cvLong; try apply tight_registerMode; try free_tac.
  Qed.
End Split.

Section Lock.
  Context {I : Type} (E : Env I) (m : I -> Z -> Z) (Hm : cv_memory E m).
  Implicit Types s : st I.

  Definition lock_of (c : Z -> Z) : bool := cvs_locked (switches c).
  Definition Lk s : Prop := locked s = lock_of (m (app s)).

  (** Leaves the lock and its CVs alone *)
  Definition still {A} (f : M (I := I) A) : Prop := forall s a s' es, f s = Ok (a, s', es) ->
    locked s' = locked s /\ m (app s') 14 = m (app s) 14 /\ m (app s') 15 = m (app s) 15.
  Definition lawful {A} (f : M (I := I) A) : Prop := forall s a s' es, f s = Ok (a, s', es) -> Lk s -> Lk s'.

  Lemma lock_ext : forall c d, c 14 = d 14 -> c 15 = d 15 -> lock_of c = lock_of d.
  Proof. intros c d H1 H2. unfold lock_of, switches, cv. cbn [cvs_locked]. change (15 - 1) with 14. change (16 - 1) with 15. rewrite H1, H2. reflexivity. Qed.
  Lemma still_lawful : forall A (f : M (I := I) A), still f -> lawful f.
  Proof.
    intros A f Hf s a s' es H K. destruct (Hf _ _ _ _ H) as (H1 & H2 & H3). unfold Lk in *.
    rewrite H1, K. apply lock_ext; congruence.
  Qed.
  Lemma still_bind : forall A B (f : M (I := I) A) (k : A -> M B), still f -> (forall a, still (k a)) -> still (bind f k).
  Proof.
    intros A B f k Hf Hk s b s' es H. apply bind_inv in H. destruct H as (a & s1 & e1 & e2 & H1 & H2 & ->).
    destruct (Hf _ _ _ _ H1) as (A1 & A2 & A3). destruct (Hk _ _ _ _ _ H2) as (B1 & B2 & B3). repeat split; congruence.
  Qed.
  Lemma lawful_bind : forall A B (f : M (I := I) A) (k : A -> M B), lawful f -> (forall a, lawful (k a)) -> lawful (bind f k).
  Proof.
    intros A B f k Hf Hk s b s' es H K. apply bind_inv in H. destruct H as (a & s1 & e1 & e2 & H1 & H2 & ->).
    exact (Hk _ _ _ _ _ H2 (Hf _ _ _ _ H1 K)).
  Qed.

  Lemma still_ret : forall A (a : A), still (ret a).
  Proof. intros A a s x s' es H. unfold ret in H. assert (s' = s) as -> by congruence. auto. Qed.
  Lemma still_fail : forall A r, still (fail (A := A) r). Proof. intros A r s a s' es H. discriminate. Qed.
  Lemma still_lift : forall A (x : res A), still (lift x).
  Proof. intros A [a|r]; [apply still_ret|intros s a s' es H; discriminate]. Qed.
  Lemma still_get : still get.
  Proof. intros s x s' es H. unfold get in H. assert (s' = s) as -> by congruence. auto. Qed.
  Lemma still_at : forall bs i, still (at_ bs i).
  Proof. intros bs i. unfold at_. destruct (nth_error bs i); [apply still_ret|apply still_fail]. Qed.
  Lemma still_modify : forall g, (forall r, lockf (g r) = lockf r) -> still (modify g).
  Proof.
    intros g Hg s a s' es H. unfold modify in H. assert (s' = Mk_st (g (rxs s)) (app s) (pending s)) as -> by congruence.
    split; [exact (Hg (rxs s))|]. auto.
  Qed.
  Ltac prim H := apply Ok_inj in H; inversion H; subst; cbn [rxs app].
  Lemma still_readCv : forall a, still (readCv E a).
  Proof.
    intros a s r s' es H. unfold readCv in H. pose proof (mem_read E m Hm (app s) a) as [_ K].
    destruct (e_readCv E (app s) a) as [v i]. cbn [snd] in K. prim H. rewrite K. auto.
  Qed.
  Lemma still_readCvByte : forall a b, still (readCvByte E a b).
  Proof.
    intros a b s r s' es H. unfold readCvByte in H. pose proof (mem_readByte E m Hm (app s) a b) as [_ K].
    destruct (e_readCvByte E (app s) a b) as [v i]. cbn [snd] in K. prim H. rewrite K. auto.
  Qed.
  Lemma still_readCvBit : forall a b k, 0 <= k < 8 -> still (readCvBit E a b k).
  Proof.
    intros a b k Hk s r s' es H. unfold readCvBit in H. pose proof (mem_readBit E m Hm (app s) a b k Hk) as [_ K].
    destruct (e_readCvBit E (app s) a b k) as [v i]. cbn [snd] in K. prim H. rewrite K. auto.
  Qed.
  Lemma still_writeCv : forall a b, a <> 14 -> a <> 15 -> still (writeCv E a b).
  Proof.
    intros a b H14 H15 s r s' es H. unfold writeCv in H. pose proof (mem_write E m Hm (app s) a b) as [_ K].
    destruct (e_writeCv E (app s) a b) as [v i]. cbn [snd] in K. prim H. rewrite !K by congruence. auto.
  Qed.
  Lemma still_writeCvBit : forall a b k, 0 <= k < 8 -> a <> 14 -> a <> 15 -> still (writeCvBit E a b k).
  Proof.
    intros a b k Hk H14 H15 s r s' es H. unfold writeCvBit in H. pose proof (mem_writeBit E m Hm (app s) a b k Hk) as [_ K].
    destruct (e_writeCvBit E (app s) a b k) as [v i]. cbn [snd] in K. prim H. rewrite !K by congruence. auto.
  Qed.
  Lemma still_call : forall e, still (call E e).
  Proof. intros e s r s' es H. unfold call in H. prim H. rewrite (mem_hook E m Hm). auto. Qed.
  Lemma still_rand : still (rand E).
  Proof.
    intros s r s' es H. unfold rand in H. pose proof (mem_rand E m Hm (app s)) as K.
    destruct (e_rand E (app s)) as [v i]. cbn [snd] in K. prim H. rewrite K. auto.
  Qed.
  Lemma still_now : still (now E).
  Proof.
    intros s r s' es H. unfold now in H. pose proof (mem_now E m Hm (app s)) as K.
    destruct (e_now E (app s)) as [v i]. cbn [snd] in K. prim H. rewrite K. auto.
  Qed.

  Ltac still1 :=
    lazymatch goal with
    | |- still (bind _ _) => apply still_bind; [|intro]
    | |- still (ret _) => apply still_ret
    | |- still (fail _) => apply still_fail
    | |- still (lift _) => apply still_lift
    | |- still get => apply still_get
    | |- still (at_ _ _) => apply still_at
    | |- still (readCv _ _) => apply still_readCv
    | |- still (readCvByte _ _ _) => apply still_readCvByte
    | |- still (readCvBit _ _ _ _) => apply still_readCvBit; rewrite ?land_7; lia
    | |- still (writeCv _ _ _) => apply still_writeCv; discriminate
    | |- still (writeCvBit _ _ _ _) => apply still_writeCvBit; [lia|discriminate|discriminate]
    | |- still (call _ _) => apply still_call
    | |- still (rand _) => apply still_rand
    | |- still (now _) => apply still_now
    | |- still (modify _) => apply still_modify; intro; reflexivity
    | |- still (when ?b _) => unfold when
    | |- still (if ?b then _ else _) => destruct b
    | |- still (match ?x with _ => _ end) => destruct x
    | |- still (let _ := _ in _) => cbv zeta
    | |- still ?f => let h := head_of f in unfold h
    end.
  Ltac still_tac := repeat still1.

  Lemma still_cvVerify : forall a b, still (cvVerify E a b).
  Proof. intros a b. unfold cvVerify. rewrite (proj1 (mem_sync E m Hm)). still_tac. Qed.
  Lemma still_cvVerifyBit : forall a b k, 0 <= k < 8 -> still (cvVerifyBit E a b k).
  Proof. intros a b k Hk. unfold cvVerifyBit. rewrite (proj1 (mem_sync E m Hm)). still_tac; apply Hk. Qed.
  Lemma still_housekeeping : still (housekeeping E). Proof. still_tac. Qed.
  Lemma still_receive : forall t, still (receive E t). Proof. intros t. still_tac. Qed.
  Lemma still_dyn_all : forall ds, still (dyn_all ds).
  Proof. induction ds as [|d ds IH]; [apply still_ret|]. apply still_bind; [still_tac|intros _; exact IH]. Qed.
  Lemma still_datagram : forall ds, still (datagram ds).
  Proof.
    intros ds. unfold datagram. apply still_bind; [apply still_get|intros r].
    apply still_bind; [still_tac|intros _]. apply still_bind; [apply still_get|intros r'].
    destruct (block_dyn (r_bidi r')); [apply still_ret|apply still_dyn_all].
  Qed.

  Lemma init_Lk : forall s u s' es, init E s = Ok (u, s', es) -> Lk s'.
  Proof.
    intros s u s' es H. destruct (init_memory E m s Hm) as [[_ K]|(_ & t & K & ((_ & _ & Hc) & _) & _ & Hmt)]; [congruence|].
    assert (t = s') as -> by congruence. unfold Lk, locked. rewrite Hmt.
    change (cvs_locked (r_conf (rxs s'))) with (cvs_locked (upd_did [] (r_conf (rxs s')))). rewrite Hc. reflexivity.
  Qed.

  Lemma lawful_written : forall a f, wrote m a f -> lawful (bind f (fun _ => reinit E a)).
  Proof.
    intros a f Hf s u s' es H K. apply bind_inv in H. destruct H as (u1 & s1 & e1 & e2 & H1 & H2 & ->).
    destruct (Hf _ _ _ _ H1) as (A1 & A2 & _). unfold reinit, when in H2.
    destruct (existsb (Z.eqb a) init_cvs) eqn:Ea.
    - exact (init_Lk _ _ _ _ H2).
    - unfold ret in H2. assert (s' = s1) as -> by congruence.
      assert (Hn : ~ In (a + 1) [1; 15; 16; 17; 18; 19; 20; 28; 29]) by (rewrite <- init_cvs_spec; congruence).
      assert (a <> 14 /\ a <> 15) as [N1 N2] by (split; intros ->; apply Hn; cbn; auto).
      unfold Lk in *. assert (locked s1 = locked s) as ->.
      { unfold cfg in A1. unfold locked. change (cvs_locked (upd_did [] (r_conf (rxs s1))) = cvs_locked (upd_did [] (r_conf (rxs s)))). congruence. }
      rewrite K. apply lock_ext; symmetry; apply A2; congruence.
  Qed.
  Lemma lawful_cvWrite : forall a b, lawful (cvWrite E a b).
  Proof.
    intros a b. unfold cvWrite. rewrite (proj2 (mem_sync E m Hm)).
    apply lawful_bind; [apply still_lawful, still_get|intros r].
    destruct (cvs_locked (r_conf r) && negb (a =? 14)); [apply still_lawful, still_ret|].
    apply lawful_written, (wrote_byte E m Hm). intros v. apply (quiet_cb_byte E m Hm).
  Qed.
  Lemma lawful_cvWriteBit : forall a b p, 0 <= p < 8 -> lawful (cvWriteBit E a b p).
  Proof.
    intros a b p Hp. unfold cvWriteBit. rewrite (proj2 (mem_sync E m Hm)).
    apply lawful_bind; [apply still_lawful, still_get|intros r].
    destruct (cvs_locked (r_conf r) && negb (a =? 14)); [apply still_lawful, still_ret|].
    apply lawful_written, (wrote_bit E m Hm); [exact Hp|]. intros v. apply (quiet_cb_bit E m Hm).
  Qed.

  Ltac lawful1 :=
    lazymatch goal with
    | |- lawful (bind _ _) => apply lawful_bind; [|intro]
    | |- lawful (cvVerify _ _ _) => apply still_lawful, still_cvVerify
    | |- lawful (cvVerifyBit _ _ _ _) => apply still_lawful, still_cvVerifyBit; rewrite ?land_7; lia
    | |- lawful (cvWrite _ _ _) => apply lawful_cvWrite
    | |- lawful (cvWriteBit _ _ _ _) => apply lawful_cvWriteBit; rewrite ?land_7; lia
    | |- lawful (ret _) => apply still_lawful, still_ret
    | |- lawful (fail _) => apply still_lawful, still_fail
    | |- lawful (lift _) => apply still_lawful, still_lift
    | |- lawful get => apply still_lawful, still_get
    | |- lawful (at_ _ _) => apply still_lawful, still_at
    | |- lawful (call _ _) => apply still_lawful, still_call
    | |- lawful (rand _) => apply still_lawful, still_rand
    | |- lawful (now _) => apply still_lawful, still_now
    | |- lawful (modify _) => apply still_lawful, still_modify; intro; reflexivity
    | |- lawful (when ?b _) => unfold when
    | |- lawful (if ?b then _ else _) => destruct b
    | |- lawful (match ?x with _ => _ end) => destruct x
    | |- lawful (let _ := _ in _) => cbv zeta
    | |- lawful ?f => let h := head_of f in unfold h
    end.
  Ltac lawful_tac := repeat lawful1.

  Lemma lawful_command : lawful (executeCommand E). Proof. lawful_tac. Qed.
  Lemma lawful_execute : lawful (execute E).
  Proof.
    unfold execute. apply lawful_bind; [apply still_lawful, still_get|intros r].
    destruct (f_packet_end _ || _); [apply still_lawful, still_ret|].
    do 4 (apply lawful_bind; [apply still_lawful; still_tac|intros _]).
    apply lawful_bind; [apply lawful_command|intros b]. apply still_lawful. still_tac.
  Qed.

  Lemma lawful_step : forall o, lawful (step E o).
  Proof.
    intros o. destruct o; cbn [step];
      try (apply lawful_bind; [|intros _; apply still_lawful, still_ret]).
    - intros s u s' es H _. exact (init_Lk _ _ _ _ H).
    - apply still_lawful. still_tac.
    - apply still_lawful. still_tac.
    - apply still_lawful, still_receive.
    - apply lawful_execute.
    - apply still_lawful, still_datagram.
    - apply still_lawful. still_tac.
    - apply still_lawful. still_tac.
    - intros s u s' es H K. destruct (nth_error (pending s) i) as [c|].
      + assert (lawful (bind (run_cb E c v) (fun _ => ret false))) as X by (apply still_lawful; still_tac).
        exact (X _ _ _ _ H K).
      + assert (s' = s) as -> by congruence. exact K.
  Qed.

  Lemma lawful_run : forall os, lawful (run E os).
  Proof.
    induction os as [|o os IH]; cbn [run]; [apply still_lawful, still_ret|].
    apply lawful_bind; [apply lawful_step|intros _; exact IH].
  Qed.

  Lemma after_init : forall os1 os2 s0 s es, run E (os1 ++ OInit :: os2) s0 = Ok (tt, s, es) -> Lk s.
  Proof.
    intros os1 os2 s0 s es H. apply run_app in H. destruct H as (s1 & e1 & e2 & H1 & H2 & ->).
    cbn [run] in H2. apply bind_inv in H2. destruct H2 as (b & s2 & e3 & e4 & H2 & H3 & ->).
    apply (lawful_run os2 _ _ _ _ H3). cbn [step] in H2. apply bind_inv in H2.
    destruct H2 as (u & s3 & e5 & e6 & H2 & H4 & ->). unfold ret in H4. assert (s2 = s3) as -> by congruence.
    exact (init_Lk _ _ _ _ H2).
  Qed.
End Lock.

Section Locked.
  Context {I : Type} (E : Env I).
  Implicit Types s : st I.

  Ltac fr := unfold free; emits_tac; reflexivity.
  Lemma free_dyn_all : forall ds, free (I := I) (dyn_all ds).
  Proof. induction ds as [|d ds IH]; [apply emits_ret|]. apply emits_bind; [emits_tac|intros _; exact IH]. Qed.
  Lemma free_datagram : forall ds, free (I := I) (datagram ds).
  Proof.
    intros ds. unfold datagram. apply emits_bind; [apply emits_get|intros r].
    apply emits_bind; [emits_tac|intros _]. apply emits_bind; [apply emits_get|intros r'].
    destruct (block_dyn (r_bidi r')); [apply emits_ret|apply free_dyn_all].
  Qed.

  (** Only execution accesses CVs *)
  Lemma step_free : forall s o b s' es, step E o s = Ok (b, s', es) -> o <> OExecute -> accesses es = [].
  Proof.
    intros s o b s' es H Ho.
    assert (K : forall (f : M (I := I) unit), free f -> bind f (fun _ => ret false) s = Ok (b, s', es) -> accesses es = []).
    { intros f Hf Hx. apply (free_nil bool (bind f (fun _ => ret false)) s b s'); [|exact Hx].
      apply emits_bind; [exact Hf|intros; apply emits_ret]. }
    destruct o; cbn [step] in H; try contradiction.
    - apply (K _ (free_init E) H).
    - apply (K enable); [fr|exact H].
    - apply (K disable); [fr|exact H].
    - apply (K (receive E time)); [fr|exact H].
    - apply (K _ (free_datagram ds) H).
    - apply (K (biDiChannel1 E)); [fr|exact H].
    - apply (K (biDiChannel2 E)); [fr|exact H].
    - destruct (nth_error (pending s) i) as [c|]; [|assert (es = []) as -> by congruence; reflexivity].
      apply (K _ (free_run_cb E c v) H).
  Qed.

  Lemma locked_step : forall s o b s' es, locked s = true -> step E o s = Ok (b, s', es) ->
    exists e1 e2, es = e1 ++ e2 /\ (if match o with OExecute => true | _ => false end then storing s e1 else e1 = []) /\
      Forall cv15 (accesses e2).
  Proof.
    intros s o b s' es Hl H.
    destruct o; try (exists [], es; split; [reflexivity|]; split; [reflexivity|]; rewrite (step_free _ _ _ _ _ H) by discriminate; constructor).
    cbn [step] in H.
    destruct (f_packet_end (r_fsm (rxs s))) eqn:Ef.
    { rewrite execute_gate in H by auto. exists [], []. split; [cbn; congruence|]. split; [split; [constructor|trivial]|constructor]. }
    destruct (r_deque (rxs s)) as [|p q] eqn:Ed.
    { rewrite execute_gate in H by auto. exists [], []. split; [cbn; congruence|]. split; [split; [constructor|trivial]|constructor]. }
    assert (ready s p q) as Hr by (split; assumption).
    destruct (execute_split E s p q Hr) as (s1 & e1 & Hk & Hp & Hs & He). rewrite H in He.
    destruct (executeCommand E s1) as [[[b2 s2] e2]|] eqn:Ec; [|discriminate].
    exists e1, e2. split; [congruence|]. split; [exact Hs|].
    assert (locked s1 = true) as Hl1 by (unfold hk in Hk; unfold locked in *; congruence).
    assert (T : tight (executeCommand E)); [|exact (T _ _ _ _ Ec Hl1)].
    unfold executeCommand. apply tight_calm; [split; [fr|keeps_tac]|intros r].
    destruct (service_mode (r_cv r)); [apply tight_service|].
    unfold executeOperations. do 3 (apply tight_calm; [split; [fr|keeps_tac]|intro]).
    assert (X : forall bs, tight (executeOperationsAddressed E a1 bs)).
    { intros bs. unfold executeOperationsAddressed. apply tight_calm; [split; [fr|keeps_tac]|intros r']. cbv zeta.
      assert (Y : forall n, tight (bind (bind (lift (decode_instruction bs)) (fun i =>
        match i with
        | IDecoderControl =>
            if n =? 0 then bind (at_ bs 0) (fun b0 => if b0 =? 0 then serviceMode E true else ret tt)
            else ret tt
        | IConsistControl => consistControl E bs
        | IAdvancedOperations => advancedOperations E n bs
        | ISpeedDirection => speedAndDirection E n bs
        | IFunctionGroup => functionGroup E n bs
        | IFeatureExpansion => featureExpansion E n bs
        | ICvLong => cvLong E n bs
        | ICvShort => cvShort E n bs
        | IUnknownService | ILogon => ret tt
        end)) (fun _ => ret true))).
      { intros n. apply tight_then; [apply (tight_dispatch E n bs)|intros; apply emits_ret]. }
      intros s3 x s4 es4 Hx Hl3.
      repeat match type of Hx with (if ?b then _ else _) _ = _ => destruct b eqn:? end;
        first [exact (tight_free _ _ (emits_ret _ _ false) _ _ _ _ Hx Hl3)
              |refine (Y 0 s3 x s4 es4 _ Hl3); rewrite bind_assoc; exact Hx
              |refine (Y (aval a1) s3 x s4 es4 _ Hl3); rewrite bind_assoc; rewrite Heqb0; exact Hx
              |refine (Y (aval (primary (r_addrs r'))) s3 x s4 es4 _ Hl3); rewrite bind_assoc; exact Hx]. }
    destruct (atyp a1); try apply X; apply tight_free; fr.
  Qed.

  (** The lock of CV15 and CV16 *)
  Lemma locked_cvs : forall m, cv_memory E m -> forall os1 os2 s0 s es0 o b s' es,
    run E (os1 ++ OInit :: os2) s0 = Ok (tt, s, es0) ->
    let c := m (app s) in
    cv c 15 <> 0 -> cv c 16 <> 0 -> cv c 15 <> cv c 16 -> step E o s = Ok (b, s', es) ->
    exists e1 e2, es = e1 ++ e2 /\ (if match o with OExecute => true | _ => false end then storing s e1 else e1 = []) /\
      Forall (fun x => is_writing x = true /\ target x = 15 - 1) (accesses e2).
  Proof.
    intros m Hm os1 os2 s0 s es0 o b s' es H c H1 H2 H3 Hs. apply (locked_step s o b s' es); [|exact Hs].
    rewrite (after_init E m Hm _ _ _ _ _ H). fold c. unfold lock_of, switches. cbn [cvs_locked].
    rewrite (proj2 (Z.eqb_neq _ _) H1), (proj2 (Z.eqb_neq _ _) H2), (proj2 (Z.eqb_neq _ _) H3). reflexivity.
  Qed.
End Locked.
