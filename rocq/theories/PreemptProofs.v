(** The stepwise execute() without interrupts is execute(). *)
From Verif Require Import Prelude Address Instruction Checksum Datagram Speed Packets Backoff RxState Rx RxLogic RxBitProofs ExecProofs Preempt.

Section Flat.
  Context {I : Type} (E : Env I).
  Implicit Types s : st I.

  Lemma flat_pbind : forall A C (P : prog (I := I) A) (k : A -> prog C) s,
    flat (pbind P k) s = bind (flat P) (fun a => flat (k a)) s.
  Proof.
    induction P as [a|B m h IH]; intros k s; cbn [pbind flat].
    - rewrite bind_ret. reflexivity.
    - rewrite bind_assoc. unfold bind at 1 2.
      destruct (m s) as [[[b s1] e1]|r]; [|reflexivity]. rewrite IH. reflexivity.
  Qed.

  (** [P] without interrupts is [m] as long as [p] is at the front *)
  Definition sim {A} (p : list Z) (P : prog (I := I) A) (m : M A) : Prop :=
    forall s, hd_error (r_deque (rxs s)) = Some p -> flat P s = m s.
  Definition simr {A} (r : rx) (P : prog (I := I) A) (m : M A) : Prop :=
    forall i ps, flat P (Mk_st r i ps) = m (Mk_st r i ps).

  Lemma sim_Done : forall A p (a : A), sim p (Done a) (ret a).
  Proof. intros A p a s _. reflexivity. Qed.
  Lemma sim_bind : forall A C p (P : prog A) m (k : A -> prog C) K,
    sim p P m -> keeps core m -> (forall a, sim p (k a) (K a)) -> sim p (pbind P k) (bind m K).
  Proof.
    intros A C p P m k K HP Hm Hk s Hs. rewrite flat_pbind. unfold bind.
    rewrite (HP s Hs). destruct (m s) as [[[a s1] e1]|r] eqn:Em; [|reflexivity].
    rewrite Hk; [reflexivity|]. apply Hm in Em. unfold core in Em. injection Em as _ -> _. exact Hs.
  Qed.
  Lemma sim_act : forall A p (m : M A), sim p (act m) m.
  Proof.
    intros A p m s _. unfold act. cbn [flat]. unfold bind.
    destruct (m s) as [[[a s1] e1]|r]; [|reflexivity]. cbn. rewrite app_nil_r. reflexivity.
  Qed.
  Lemma sim_byt : forall p off i, sim p (byt off i) (at_ (skipn off p) i).
  Proof.
    intros p off i s Hs. unfold byt. rewrite (sim_act _ p _ s Hs). unfold front_at, at_.
    destruct (r_deque (rxs s)) as [|q d]; [discriminate|]. injection Hs as ->.
    destruct (nth_error _ _); reflexivity.
  Qed.
  Lemma sim_local : forall A p (m : res A), sim p (local m) (lift m).
  Proof. intros A p [a|r] s _; reflexivity. Qed.
  Lemma sim_get : forall A p (P : prog A) K,
    (forall r, hd_error (r_deque r) = Some p -> simr r P (K r)) -> sim p P (bind get K).
  Proof.
    intros A p P K H [r i ps] Hs. rewrite bind_get. exact (H r Hs i ps).
  Qed.
  Lemma simr_sim : forall A r p (P : prog A) m,
    hd_error (r_deque r) = Some p -> sim p P m -> simr r P m.
  Proof. intros A r p P m Hr H i ps. apply H. exact Hr. Qed.
  Lemma simr_rd : forall A X r (f : rx -> X) (k : X -> prog A) m,
    simr r (k (f r)) m -> simr r (pbind (rd f) k) m.
  Proof.
    intros A X r f k m H i ps. unfold rd, act. cbn [pbind flat]. unfold bind, gets. cbn [rxs].
    rewrite H. destruct (m _) as [[[a s1] e1]|q]; reflexivity.
  Qed.
  Lemma simr_rd0 : forall X r (f : rx -> X) (m : M X),
    simr r (Done (f r)) m -> simr r (rd f) m.
  Proof.
    intros X r f m H i ps. rewrite <- H. reflexivity.
  Qed.
  Lemma simr_assoc : forall A B C r (P : prog A) (f : A -> prog B) (g : B -> prog C) m,
    simr r (pbind P (fun a => pbind (f a) g)) m -> simr r (pbind (pbind P f) g) m.
  Proof.
    intros A B C r P f g m H i ps. rewrite <- H. rewrite !flat_pbind. unfold bind.
    rewrite flat_pbind. unfold bind.
    destruct (flat P _) as [[[a s1] e1]|q]; [|reflexivity]. rewrite flat_pbind. unfold bind.
    destruct (flat (f a) s1) as [[[b s2] e2]|q]; [|reflexivity].
    destruct (flat (g b) s2) as [[[c s3] e3]|q]; [|reflexivity]. rewrite app_assoc. reflexivity.
  Qed.

  (** Straight line functions by computation *)
  Ltac run_both :=
    cbv [flat pbind act rd wr say gets modify bind get ret when whenP lift local fail
         readCv readCvByte readCvBit writeCv writeCvBit call rand now test_backoff tos_testP];
    cbn [rxs app pending];
    repeat (match goal with
            | |- context [match ?x with _ => _ end] =>
                lazymatch x with
                | context [match _ with _ => _ end] => fail
                | Ok _ => fail
                | _ => destruct x
                end
            end; cbn [rxs app pending]);
    try reflexivity.

  Lemma sim_init : forall p, sim p (initP E) (init E).
  Proof. intros p [r i ps] _. unfold initP, init. run_both. Qed.
  Lemma sim_pom : forall p v, sim p (pomP v) (@pom I v).
  Proof. intros p v [r i ps] _. unfold pomP, pom. run_both. Qed.
  Lemma sim_tos_test : forall p,
    sim p (tos_testP E) (test_backoff E (fun r => tos_backoff (r_time r)) set_tos_backoff).
  Proof. intros p [r i ps] _. run_both. Qed.
  Lemma simr_adrPush : forall r g,
    simr r (adrPushP g)
      (bind (lift (adrHigh r (g (r_addrs r)))) (fun hi =>
       bind (lift (adrLow r (g (r_addrs r)))) (fun lo =>
       modify (set_adr_deque (adr_deque (r_bidi r) ++ [hi; lo]))))).
  Proof.
    intros r g i ps. unfold adrPushP, rd, act, local, wr, act. cbn [pbind flat].
    unfold bind, gets, lift, modify. cbn [rxs].
    destruct (adrHigh r (g (r_addrs r))) as [hi|u]; [|reflexivity].
    cbn [pbind flat]. cbn [rxs app pending]. unfold bind. cbn [rxs app pending].
    change (adrLow (set_adr_deque (adr_deque (r_bidi r) ++ [hi]) r)
              (g (r_addrs (set_adr_deque (adr_deque (r_bidi r) ++ [hi]) r))))
      with (adrLow r (g (r_addrs r))).
    destruct (adrLow r (g (r_addrs r))) as [lo|u]; [|reflexivity].
    cbn. rewrite <- app_assoc. reflexivity.
  Qed.
  Lemma sim_adr : forall p, sim p adrP (@adr I).
  Proof.
    intros p. unfold adrP, adr. apply sim_get. intros r Hr. cbv zeta.
    apply simr_rd. destruct (ch1_addr_enabled (r_conf r)); [|intros i ps; reflexivity].
    cbn [negb]. apply simr_rd. destruct (length (adr_deque (r_bidi r)) =? 0)%nat; [|intros i ps; reflexivity].
    cbn [negb orb]. apply simr_rd.
    destruct (aval (logon (r_addrs r)) =? 0); [|apply (simr_adrPush r logon)].
    cbn [negb]. apply simr_rd.
    destruct (aval (consist (r_addrs r)) =? 0); [apply (simr_adrPush r primary)|].
    apply simr_rd. destruct ((0 <? _) && _); [apply (simr_adrPush r consist)|intros i ps; reflexivity].
  Qed.
  Lemma sim_logonStore : forall p, sim p (logonStoreP E) (logonStore E).
  Proof.
    intros p [[f dq cnt [pa ca la ra] cf [g1 g2 g3 g4 g5 g6 g7 g8 g9] bd cv tm] i ps] _.
    unfold logonStoreP, logonStore.
    cbv [flat pbind act rd wr gets modify bind get ret whenP when writeCv writeCvBit].
    cbn -[u8 Z.lor Z.shiftr addr_eqb]. destruct g3; [|reflexivity].
    cbn -[u8 Z.lor Z.shiftr addr_eqb]. destruct (addr_eqb pa la);
    cbn -[u8 Z.lor Z.shiftr addr_eqb];
    repeat (match goal with
            | |- context [match ?x with _ => _ end] =>
                lazymatch x with
                | context [match _ with _ => _ end] => fail
                | _ => destruct x
                end
            end; cbn -[u8 Z.lor Z.shiftr addr_eqb]); reflexivity.
  Qed.
  Lemma sim_updateQos : forall p, sim p updateQosP (@updateQos I).
  Proof. intros p [r i ps] _. unfold updateQosP, updateQos. run_both. Qed.
  Lemma sim_updateTimepoints : forall p, sim p (updateTimepointsP E) (updateTimepoints E).
  Proof. intros p [r i ps] _. unfold updateTimepointsP, updateTimepoints. run_both. Qed.
  Lemma sim_countOwn : forall p, sim p countOwnP (@countOwnEqualCvPackets I).
  Proof.
    intros p [r i ps] Hs. unfold countOwnP, countOwnEqualCvPackets, front. cbn [rxs] in Hs.
    cbv [flat pbind act rd wr gets modify bind get ret lift local fail]. cbn [rxs app pending].
    destruct (r_deque r) as [|q d] eqn:Ed; [discriminate|]. cbn [rxs].
    destruct (list_eqb (last_own_cv_packet (r_cv r)) q); [reflexivity|].
    cbn -[set_pom_deque]. rewrite Ed. reflexivity.
  Qed.

  Lemma sim_if : forall A p (b : bool) (P Q : prog A) m n,
    sim p P m -> sim p Q n -> sim p (if b then P else Q) (if b then m else n).
  Proof. intros A p [] P Q m n H1 H2; assumption. Qed.
  Lemma simr_if : forall A r (b : bool) (P Q : prog A) m n,
    simr r P m -> simr r Q n -> simr r (if b then P else Q) (if b then m else n).
  Proof. intros A r [] P Q m n H1 H2; assumption. Qed.
  Lemma sim_when : forall p b (P : prog unit) m, sim p P m -> sim p (whenP b P) (when b m).
  Proof. intros p [] P m H; [exact H|]. intros s _. reflexivity. Qed.
  Lemma simr_Done : forall A r (a : A), simr r (Done a) (ret a).
  Proof. intros A r a i ps. reflexivity. Qed.
  Lemma simr_byt : forall A r p off i (k : Z -> prog A) K,
    hd_error (r_deque r) = Some p ->
    (forall b, simr r (k b) (K b)) -> simr r (pbind (byt off i) k) (bind (at_ (skipn off p) i) K).
  Proof.
    intros A r p off i k K Hr H j ps. unfold byt, act. cbn [pbind flat]. unfold bind, front_at, at_.
    cbn [rxs]. destruct (r_deque r) as [|q d]; [discriminate|]. injection Hr as ->.
    destruct (nth_error _ _) as [b|]; [|reflexivity]. unfold ret. rewrite (H b). reflexivity.
  Qed.

  Lemma sim_say : forall p e, sim p (say E e) (call E e).
  Proof. intros. apply sim_act. Qed.

  Lemma sim_cb_byte : forall p b v, sim p (cb_byteP E b v) (cb_byte E b v).
  Proof.
    intros p b v. unfold cb_byteP, cb_byte. apply sim_get. intros r Hr. apply simr_rd.
    apply (simr_sim _ r p _ _ Hr). apply sim_if; [apply sim_pom|].
    apply sim_if; [apply sim_say|apply sim_Done].
  Qed.
  Lemma sim_cb_bit : forall p b v, sim p (cb_bitP E b v) (cb_bit E b v).
  Proof.
    intros p b v. unfold cb_bitP, cb_bit. apply sim_get. intros r Hr. apply simr_rd.
    apply (simr_sim _ r p _ _ Hr). apply sim_if; [apply sim_pom|].
    apply sim_if; [apply sim_say|apply sim_Done].
  Qed.
  Lemma sim_run_cb : forall p c v, sim p (run_cbP E c v) (run_cb E c v).
  Proof. intros p [b|b] v; [apply sim_cb_byte|apply sim_cb_bit]. Qed.
  Lemma sim_call_async : forall p e c, sim p (call_asyncP E e c) (call_async E e c).
  Proof.
    intros p e c s Hs. unfold call_asyncP, call_async, act. cbn [pbind flat]. unfold bind, ask.
    destruct (e_async E (app s) e) as [[v|] i]; [|reflexivity].
    rewrite (sim_run_cb p c v (Mk_st (rxs s) i (pending s)) Hs). destruct (run_cb E c v _) as [[[u s1] e1]|r]; reflexivity.
  Qed.

  Lemma sim_cvVerify : forall p a b, sim p (cvVerifyP E a b) (cvVerify E a b).
  Proof.
    intros p a b. unfold cvVerifyP, cvVerify. apply sim_get. intros r Hr. apply simr_rd.
    apply (simr_sim _ r p _ _ Hr). apply sim_if; [apply sim_Done|].
    apply sim_if; [apply sim_call_async|].
    apply sim_bind; [apply sim_act|keeps_tac|intro; apply sim_cb_byte].
  Qed.
  Lemma sim_cvVerifyBit : forall p a b o, sim p (cvVerifyBitP E a b o) (cvVerifyBit E a b o).
  Proof.
    intros p a b o. unfold cvVerifyBitP, cvVerifyBit. apply sim_get. intros r Hr. apply simr_rd.
    apply (simr_sim _ r p _ _ Hr). apply sim_if; [apply sim_Done|].
    apply sim_if; [apply sim_call_async|].
    apply sim_bind; [apply sim_act|keeps_tac|intro; apply sim_cb_bit].
  Qed.
  Lemma sim_reinit : forall p a, sim p (reinitP E a) (reinit E a).
  Proof. intros p a. apply sim_when, sim_init. Qed.
  Lemma sim_cvWrite : forall p a b, sim p (cvWriteP E a b) (cvWrite E a b).
  Proof.
    intros p a b. unfold cvWriteP, cvWrite. apply sim_get. intros r Hr. apply simr_rd.
    apply (simr_sim _ r p _ _ Hr). apply sim_if; [apply sim_Done|].
    apply sim_bind; [|keeps_tac|intro; apply sim_reinit].
    apply sim_if; [apply sim_call_async|].
    apply sim_bind; [apply sim_act|keeps_tac|intro; apply sim_cb_byte].
  Qed.
  Lemma sim_cvWriteBit : forall p a b o, sim p (cvWriteBitP E a b o) (cvWriteBit E a b o).
  Proof.
    intros p a b o. unfold cvWriteBitP, cvWriteBit. apply sim_get. intros r Hr. apply simr_rd.
    apply (simr_sim _ r p _ _ Hr). apply sim_if; [apply sim_Done|].
    apply sim_bind; [|keeps_tac|intro; apply sim_reinit].
    apply sim_if; [apply sim_call_async|].
    apply sim_bind; [apply sim_act|keeps_tac|intro; apply sim_cb_bit].
  Qed.

  (** _addrs.consist guard of cvLong and cvShort *)
  Lemma simr_is_consist : forall A r a (P Q : prog A) m n,
    simr r P m -> simr r Q n ->
    simr r (pbind (is_consistP a) (fun c : bool => if c then P else Q))
      (if negb (a =? 0) && (a =? aval (consist (r_addrs r))) then m else n).
  Proof.
    intros A r a P Q m n H1 H2. unfold is_consistP. destruct (a =? 0); [exact H2|].
    cbn [negb andb]. apply simr_rd. apply simr_if; assumption.
  Qed.

  Lemma sim_cvLong : forall p a off, sim p (cvLongP E a off) (cvLong E a (skipn off p)).
  Proof.
    intros p a off. unfold cvLongP, cvLong. apply sim_get. intros r Hr.
    apply simr_is_consist; [apply simr_Done|].
    apply (simr_sim _ r p _ _ Hr). apply sim_bind; [apply sim_countOwn|keeps_tac|intros _].
    apply sim_get. clear r Hr. intros r Hr. cbv zeta. apply simr_rd.
    destruct (service_mode (r_cv r)) eqn:Esm; cbn [andb].
    - apply simr_assoc. unfold countP at 1. apply simr_rd. cbn [pbind].
      apply simr_if; [apply simr_Done|].
      apply simr_byt; [exact Hr|intro b0]. apply simr_byt; [exact Hr|intro b1].
      apply simr_if; [apply simr_Done|]. apply simr_if.
      { apply simr_byt; [exact Hr|intro b2]. apply (simr_sim _ r p _ _ Hr), sim_cvVerify. }
      apply simr_if.
      { unfold countP. apply simr_rd. apply simr_if; [apply simr_Done|]. apply simr_rd.
        apply simr_if; (apply simr_byt; [exact Hr|intro b2]);
        apply (simr_sim _ r p _ _ Hr); [apply sim_cvWrite|apply sim_cvVerify]. }
      apply simr_byt; [exact Hr|intro b2].
      apply simr_if; [apply (simr_sim _ r p _ _ Hr), sim_cvVerifyBit|].
      unfold countP. apply simr_rd. apply simr_if; [|apply simr_Done].
      apply (simr_sim _ r p _ _ Hr), sim_cvWriteBit.
    - cbn [pbind].
      apply simr_byt; [exact Hr|intro b0]. apply simr_byt; [exact Hr|intro b1].
      apply simr_if; [apply simr_Done|]. apply simr_if.
      { apply simr_byt; [exact Hr|intro b2]. apply (simr_sim _ r p _ _ Hr), sim_cvVerify. }
      apply simr_if.
      { unfold countP. apply simr_rd. apply simr_if; [apply simr_Done|]. apply simr_rd.
        apply simr_if; (apply simr_byt; [exact Hr|intro b2]);
        apply (simr_sim _ r p _ _ Hr); [apply sim_cvWrite|apply sim_cvVerify]. }
      apply simr_byt; [exact Hr|intro b2].
      apply simr_if; [apply (simr_sim _ r p _ _ Hr), sim_cvVerifyBit|].
      unfold countP. apply simr_rd. apply simr_if; [|apply simr_Done].
      apply (simr_sim _ r p _ _ Hr), sim_cvWriteBit.
  Qed.

  Lemma sim_cvShort : forall p a off, sim p (cvShortP E a off) (cvShort E a (skipn off p)).
  Proof.
    intros p a off. unfold cvShortP, cvShort. apply sim_get. intros r Hr.
    apply simr_is_consist; [apply simr_Done|].
    apply (simr_sim _ r p _ _ Hr). apply sim_bind; [apply sim_countOwn|keeps_tac|intros _].
    apply sim_get. clear r Hr. intros r Hr. cbv zeta.
    apply simr_byt; [exact Hr|intro b0].
    apply simr_if; [apply simr_byt; [exact Hr|intro]; apply (simr_sim _ r p _ _ Hr), sim_cvWrite|].
    apply simr_if; [apply simr_byt; [exact Hr|intro]; apply (simr_sim _ r p _ _ Hr), sim_cvWrite|].
    apply simr_if.
    { unfold countP. apply simr_rd. apply simr_if; [apply simr_Done|].
      apply simr_byt; [exact Hr|intro]. apply (simr_sim _ r p _ _ Hr).
      apply sim_bind; [apply sim_cvWrite|keeps_tac|intros _].
      apply sim_bind; [apply sim_byt|keeps_tac|intro].
      apply sim_bind; [apply sim_cvWrite|keeps_tac|intros _]. apply sim_cvWriteBit. }
    apply simr_if; [|apply simr_Done].
    unfold countP. apply simr_rd. apply simr_if; [apply simr_Done|].
    apply simr_byt; [exact Hr|intro]. apply (simr_sim _ r p _ _ Hr).
    apply sim_bind; [apply sim_cvWrite|keeps_tac|intros _].
    apply sim_bind; [apply sim_byt|keeps_tac|intro]. apply sim_cvWrite.
  Qed.

  Lemma sim_registerMode : forall p off, sim p (registerModeP E off) (registerMode E (skipn off p)).
  Proof.
    intros p off. unfold registerModeP, registerMode.
    apply sim_bind; [apply sim_byt|keeps_tac|intro b0].
    apply sim_get. intros r Hr. cbv zeta.
    assert (Ha : forall cv, sim p (pbind (byt off 1) (fun b1 => if Z.testbit b0 3 then cvWriteP E cv b1 else cvVerifyP E cv b1))
                  (bind (at_ (skipn off p) 1) (fun b1 => if Z.testbit b0 3 then cvWrite E cv b1 else cvVerify E cv b1))).
    { intro cv. apply sim_bind; [apply sim_byt|keeps_tac|intro b1].
      apply sim_if; [apply sim_cvWrite|apply sim_cvVerify]. }
    apply simr_if; [apply simr_rd; apply (simr_sim _ r p _ _ Hr), Ha|].
    apply simr_if; [apply (simr_sim _ r p _ _ Hr), Ha|].
    apply simr_if; [|apply (simr_sim _ r p _ _ Hr), Ha].
    apply simr_byt; [exact Hr|intro b1].
    apply simr_if; [apply (simr_sim _ r p _ _ Hr), sim_act|]. apply simr_rd.
    apply (simr_sim _ r p _ _ Hr). apply sim_if; [apply sim_say|apply sim_Done].
  Qed.

  Lemma sim_serviceMode : forall p b, sim p (serviceModeP E b) (serviceMode E b).
  Proof. intros p b. apply sim_bind; [apply sim_say|keeps_tac|intros _; apply sim_act]. Qed.
  Lemma sim_consistControl : forall p off, sim p (consistControlP E off) (consistControl E (skipn off p)).
  Proof.
    intros p off. unfold consistControlP, consistControl.
    apply sim_bind; [apply sim_byt|keeps_tac|intro b0].
    apply sim_bind; [apply sim_byt|keeps_tac|intro b1]. apply sim_cvWrite.
  Qed.
  Lemma sim_directionSpeed : forall p a d v, sim p (directionSpeedP E a d v) (directionSpeed E a d v).
  Proof.
    intros p a d v. unfold directionSpeedP, directionSpeed. apply sim_get. intros r Hr. cbv zeta.
    apply simr_rd. destruct (a =? aval (primary (r_addrs r))); apply simr_rd;
    (apply (simr_sim _ r p _ _ Hr); apply sim_bind; [apply sim_say|keeps_tac|intros _; apply sim_say]).
  Qed.
  Lemma sim_speed126 : forall p a off, sim p (speed126P E a off) (speed126 E a (skipn off p)).
  Proof.
    intros p a off. unfold speed126P, speed126.
    apply sim_bind; [apply sim_byt|keeps_tac|intro b1].
    apply sim_if; [apply sim_directionSpeed|]. apply sim_if; [apply sim_say|apply sim_directionSpeed].
  Qed.

  Lemma sim_size : forall A p off (k : nat -> prog A) m,
    sim p (k (length (skipn off p))) m -> sim p (pbind (act (front_size off)) k) m.
  Proof.
    intros A p off k m H s Hs. rewrite <- (H s Hs). unfold act. cbn [pbind flat]. unfold bind, front_size.
    destruct (r_deque (rxs s)) as [|q d]; [discriminate|]. injection Hs as ->.
    destruct (flat _ s) as [[[u s1] e1]|r]; reflexivity.
  Qed.
  (** The byte just read is read again *)
  Lemma sim_again : forall A p off i b (k : Z -> prog A) m,
    nth_error (skipn off p) i = Some b -> sim p (k b) m -> sim p (pbind (byt off i) k) m.
  Proof.
    intros A p off i b k m Hb H s Hs. rewrite <- (H s Hs). unfold byt, act. cbn [pbind flat].
    unfold bind, front_at.
    destruct (r_deque (rxs s)) as [|q d]; [discriminate|]. injection Hs as ->. rewrite Hb.
    destruct (flat _ s) as [[[u s1] e1]|r]; reflexivity.
  Qed.
  Lemma sim_first : forall A p off i (k : Z -> prog A) K,
    (forall b, nth_error (skipn off p) i = Some b -> sim p (k b) (K b)) ->
    sim p (pbind (byt off i) k) (bind (at_ (skipn off p) i) K).
  Proof.
    intros A p off i k K H s Hs. unfold byt, act. cbn [pbind flat]. unfold bind, front_at, at_.
    destruct (r_deque (rxs s)) as [|q d] eqn:Ed; [discriminate|]. injection Hs as ->.
    destruct (nth_error _ _) as [b|]; [|reflexivity]. unfold ret.
    rewrite (H b eq_refl s); [reflexivity|]. rewrite Ed. reflexivity.
  Qed.

  Lemma sim_advancedOperations : forall p a off,
    sim p (advancedOperationsP E a off) (advancedOperations E a (skipn off p)).
  Proof.
    intros p a off. unfold advancedOperationsP, advancedOperations.
    apply sim_bind; [apply sim_byt|keeps_tac|intro b0].
    apply sim_if.
    { apply sim_size. cbv zeta.
      do 4 (apply sim_bind; [apply sim_when; apply sim_bind; [apply sim_byt|keeps_tac|intro; apply sim_say]
                            |keeps_tac|intros _]).
      apply sim_speed126. }
    apply sim_if; [apply sim_speed126|]. apply sim_if; [|apply sim_Done].
    apply sim_first. intros b1 Hb1. apply sim_bind; [apply sim_act|keeps_tac|intros _].
    apply sim_when. apply (sim_again _ p off 1 b1 _ _ Hb1). apply sim_if; apply sim_say.
  Qed.
  Lemma sim_speedAndDirection : forall p a off,
    sim p (speedAndDirectionP E a off) (speedAndDirection E a (skipn off p)).
  Proof.
    intros p a off. unfold speedAndDirectionP, speedAndDirection.
    apply sim_first. intros b0 Hb0. cbv zeta. apply sim_if; [apply sim_say|].
    apply sim_get. intros r Hr. apply simr_rd. apply (simr_sim _ r p _ _ Hr). apply sim_if.
    - apply (sim_again _ p off 0 b0 _ _ Hb0).
      apply sim_bind; [apply sim_say|keeps_tac|intros _]. apply sim_directionSpeed.
    - apply (sim_again _ p off 0 b0 _ _ Hb0). apply sim_directionSpeed.
  Qed.
  Lemma sim_functionGroup : forall p a off,
    sim p (functionGroupP E a off) (functionGroup E a (skipn off p)).
  Proof.
    intros p a off. unfold functionGroupP, functionGroup.
    apply sim_first. intros b0 Hb0. cbv zeta. apply sim_get. intros r Hr.
    destruct ((Z.land b0 0xF0 =? 0x80) || _).
    { apply simr_rd. apply (simr_sim _ r p _ _ Hr). apply (sim_again _ p off 0 b0 _ _ Hb0). apply sim_say. }
    apply (simr_sim _ r p _ _ Hr).
    destruct (Z.land b0 0xF0 =? 0xB0); [apply (sim_again _ p off 0 b0 _ _ Hb0); apply sim_say|].
    destruct (Z.land b0 0xF0 =? 0xA0); [apply (sim_again _ p off 0 b0 _ _ Hb0); apply sim_say|].
    apply sim_say.
  Qed.
  Lemma sim_tipOffSearch : forall p, sim p (tipOffSearchP E) (tipOffSearch E).
  Proof.
    intros p. unfold tipOffSearchP, tipOffSearch.
    apply sim_bind; [apply sim_tos_test|keeps_tac|intro b].
    apply sim_get. intros r Hr. destruct b; [apply simr_Done|]. cbn [orb]. apply simr_rd.
    apply simr_if; [apply simr_Done|]. cbv zeta. apply simr_rd, simr_rd.
    apply simr_if; [apply simr_Done|]. apply simr_rd.
    destruct (adrHigh r (primary (r_addrs r))) as [hi|u]; [|intros i ps; reflexivity].
    cbn [local pbind].
    intros i ps. unfold lift at 1. unfold bind at 1.
    match goal with |- ?x = ?y => enough (x = (bind (lift (adrLow r (primary (r_addrs r)))) (fun lo =>
      bind (lift (rbind (make_datagram_id B12 14 (u32 (Z.quot (last_packet_tp (r_time r) - tos_tp (r_time r)) 1000000000))) encode_datagram)) (fun tm =>
      modify (set_tos_deque (tos_deque (r_bidi r) ++ [hi ++ lo ++ tm])))) (Mk_st r i ps))) as -> end.
    { destruct (bind _ _ _) as [[[u s1] e1]|u]; reflexivity. }
    revert i ps. match goal with |- forall i ps, flat ?P _ = ?m _ => change (simr r P m) end.
    apply simr_rd.
    destruct (adrLow r (primary (r_addrs r))) as [lo|u]; [|intros i ps; reflexivity].
    cbn [local pbind]. intros i ps. unfold bind, lift.
    destruct (rbind (make_datagram_id B12 14 _) encode_datagram) as [tm|u]; reflexivity.
  Qed.
  Lemma sim_featureExpansion : forall p a off,
    sim p (featureExpansionP E a off) (featureExpansion E a (skipn off p)).
  Proof.
    intros p a off. unfold featureExpansionP, featureExpansion.
    assert (Hb : forall x b, sim p (binaryStateP E x b) (binaryState E x b)).
    { intros x b. unfold binaryStateP, binaryState. apply sim_if; [|apply sim_Done].
      apply sim_if; [apply sim_tipOffSearch|apply sim_Done]. }
    apply sim_bind; [apply sim_byt|keeps_tac|intro b0].
    apply sim_if.
    { apply sim_bind; [apply sim_byt|keeps_tac|intro b2].
      apply sim_bind; [apply sim_byt|keeps_tac|intro b1]. apply Hb. }
    apply sim_if; [apply sim_bind; [apply sim_byt|keeps_tac|intro b1]; apply Hb|].
    apply sim_if; [apply sim_bind; [apply sim_byt|keeps_tac|intro b1]; apply sim_say|].
    apply sim_if; [apply sim_bind; [apply sim_byt|keeps_tac|intro b1]; apply sim_say|].
    apply sim_Done.
  Qed.

  Lemma sim_instr : forall A p off (k : instruction -> prog A) K,
    (forall i, sim p (k i) (K i)) ->
    sim p (pbind (act (front_instruction off)) k) (bind (lift (decode_instruction (skipn off p))) K).
  Proof.
    intros A p off k K H s Hs. unfold act. cbn [pbind flat]. unfold bind, front_instruction, lift.
    destruct (r_deque (rxs s)) as [|q d] eqn:Ed; [discriminate|]. injection Hs as ->.
    destruct (decode_instruction _) as [i|u]; [|reflexivity].
    rewrite (H i s); [reflexivity|]. rewrite Ed. reflexivity.
  Qed.

  Definition instruct (a : Z) (bytes : list Z) : M bool :=
    bind (lift (decode_instruction bytes)) (fun i =>
    bind (match i with
          | IDecoderControl =>
              if a =? 0 then bind (at_ bytes 0) (fun b0 => if b0 =? 0 then serviceMode E true else ret tt)
              else ret tt
          | IConsistControl => consistControl E bytes
          | IAdvancedOperations => advancedOperations E a bytes
          | ISpeedDirection => speedAndDirection E a bytes
          | IFunctionGroup => functionGroup E a bytes
          | IFeatureExpansion => featureExpansion E a bytes
          | ICvLong => cvLong E a bytes
          | ICvShort => cvShort E a bytes
          | IUnknownService | ILogon => ret tt
          end) (fun _ => ret true)).
  Lemma sim_instruct : forall p a off, sim p (instructP E a off) (instruct a (skipn off p)).
  Proof.
    intros p a off. unfold instructP, instruct. apply sim_instr. intro i.
    apply sim_bind; [|destruct i; keeps_tac|intros _; apply sim_Done].
    destruct i; try apply sim_Done.
    - apply sim_if; [|apply sim_Done]. apply sim_bind; [apply sim_byt|keeps_tac|intro b0].
      apply sim_if; [apply sim_serviceMode|apply sim_Done].
    - apply sim_consistControl.
    - apply sim_advancedOperations.
    - apply sim_speedAndDirection.
    - apply sim_functionGroup.
    - apply sim_featureExpansion.
    - apply sim_cvLong.
    - apply sim_cvShort.
  Qed.

  Lemma sim_executeOperationsAddressed : forall p a off,
    sim p (executeOperationsAddressedP E a off) (executeOperationsAddressed E a (skipn off p)).
  Proof.
    intros p a off. unfold executeOperationsAddressedP.
    change (executeOperationsAddressed E a (skipn off p)) with
      (bind get (fun r =>
        if aval a =? 0 then instruct 0 (skipn off p)
        else if (addr_eqb a (primary (r_addrs r)) || addr_eqb a (consist (r_addrs r)))
                && (aval (logon (r_addrs r)) =? 0) then instruct (aval a) (skipn off p)
        else if addr_eqb a (logon (r_addrs r)) then instruct (aval (primary (r_addrs r))) (skipn off p)
        else ret false)).
    apply sim_get. intros r Hr.
    apply simr_if; [apply (simr_sim _ r p _ _ Hr), sim_instruct|].
    assert (Hl : simr r (pbind (rd (fun r => addr_eqb a (logon (r_addrs r)))) (fun l : bool =>
                   if l then pbind (rd (fun r => aval (primary (r_addrs r)))) (fun z => instructP E z off)
                   else Done false))
                 (if addr_eqb a (logon (r_addrs r)) then instruct (aval (primary (r_addrs r))) (skipn off p)
                  else ret false)).
    { apply simr_rd. apply simr_if; [|apply simr_Done]. apply simr_rd.
      apply (simr_sim _ r p _ _ Hr), sim_instruct. }
    apply simr_rd. destruct (addr_eqb a (primary (r_addrs r))); cbn [orb].
    - cbn [pbind]. apply simr_rd. cbn [andb].
      apply simr_if; [apply (simr_sim _ r p _ _ Hr), sim_instruct|exact Hl].
    - apply simr_rd. destruct (addr_eqb a (consist (r_addrs r))); cbn [andb].
      + apply simr_rd. apply simr_if; [apply (simr_sim _ r p _ _ Hr), sim_instruct|exact Hl].
      + exact Hl.
  Qed.

  Lemma sim_executeOperations : forall p, sim p (executeOperationsP E) (executeOperations E).
  Proof.
    intros p. unfold executeOperations. apply sim_get. intros r Hr.
    destruct (r_deque r) as [|q d] eqn:Ed; [discriminate|]. injection Hr as ->.
    intros i ps. rewrite bind_ret. unfold executeOperationsP, act. cbn [pbind flat]. unfold bind, front_address, lift.
    cbn [rxs]. rewrite Ed. destruct (decode_address p) as [a|u]; [|reflexivity].
    assert (Hd : forall n, flat (executeOperationsAddressedP E a n) (Mk_st r i ps)
                  = executeOperationsAddressed E a (skipn n p) (Mk_st r i ps)).
    { intro n. apply sim_executeOperationsAddressed. cbn [rxs]. rewrite Ed. reflexivity. }
    destruct (atyp a); cbn [pbind]; try reflexivity; rewrite Hd; reflexivity.
  Qed.

  Lemma sim_executeService : forall p, sim p (executeServiceP E) (executeService E).
  Proof.
    intros p. unfold executeService. apply sim_get. intros r Hr.
    destruct (r_deque r) as [|q d] eqn:Ed; [discriminate|]. injection Hr as ->.
    intros i ps. rewrite bind_ret.
    revert i ps. match goal with |- forall i ps, flat ?P _ = ?m _ => change (simr r P m) end.
    apply (simr_sim _ r p); [rewrite Ed; reflexivity|].
    unfold executeServiceP. change p with (skipn 0 p) at 2. apply sim_first. intros p0 Hp0.
    apply sim_bind; [|keeps_tac|intros _; apply sim_Done].
    apply sim_if; [apply sim_Done|]. apply (sim_again _ p 0 0 p0 _ _ Hp0).
    apply sim_if; [apply sim_serviceMode|]. apply sim_size.
    apply sim_if; [apply (sim_registerMode p 0)|]. apply sim_size.
    apply sim_if; [apply (sim_cvLong p 0 0)|apply sim_Done].
  Qed.

  Lemma sim_command : forall p,
    sim p (pbind (rd (fun r => service_mode (r_cv r))) (fun sm : bool =>
             if sm then executeServiceP E else executeOperationsP E)) (executeCommand E).
  Proof.
    intros p. unfold executeCommand. apply sim_get. intros r Hr. apply simr_rd.
    apply (simr_sim _ r p _ _ Hr). apply sim_if; [apply sim_executeService|apply sim_executeOperations].
  Qed.

  (** What execute does to a packet before popping it *)
  Definition handle : M bool :=
    bind adr (fun _ => bind (logonStore E) (fun _ => bind updateQos (fun _ =>
    bind (updateTimepoints E) (fun _ => executeCommand E)))).
  Lemma sim_handle : forall p, sim p (handleP E) handle.
  Proof.
    intros p. unfold handleP, handle.
    apply sim_bind; [apply sim_adr|apply core_adr|intros _].
    apply sim_bind; [apply sim_logonStore|apply core_logonStore|intros _].
    apply sim_bind; [apply sim_updateQos|apply core_updateQos|intros _].
    apply sim_bind; [apply sim_updateTimepoints|apply core_updateTimepoints|intros _].
    apply sim_command.
  Qed.

  Theorem flat_execute : forall s, flat (executeP E) s = execute E s.
  Proof.
    intros [r i ps]. unfold execute. rewrite bind_get. cbn [rxs].
    revert i ps. match goal with |- forall i ps, flat ?P _ = ?m _ => change (simr r P m) end.
    unfold executeP. apply simr_rd. destruct (f_packet_end (r_fsm r)); [apply simr_Done|].
    cbn [orb]. apply simr_rd. destruct (r_deque r) as [|p d] eqn:Ed; [apply simr_Done|]. cbn [length Nat.eqb].
    intros i ps. rewrite flat_pbind.
    match goal with |- _ = ?m _ => enough (forall s, m s = bind handle (fun b => bind popFront (fun _ => ret b)) s) as -> end.
    - unfold bind at 1 2. rewrite (sim_handle p) by (cbn [rxs]; rewrite Ed; reflexivity).
      destruct (handle _) as [[[b s1] e1]|u]; [|reflexivity].
      unfold act. cbn [pbind flat]. reflexivity.
    - assert (Hx : forall A B (m : M A) (k k' : A -> M B) s,
                (forall a t, k a t = k' a t) -> bind m k s = bind m k' s).
      { intros A B m k k' s H. unfold bind. destruct (m s) as [[[a s1] e1]|u]; [rewrite H|]; reflexivity. }
      intro s. unfold handle.
      rewrite bind_assoc. apply Hx. intros _ s1. rewrite bind_assoc. apply Hx. intros _ s2.
      rewrite bind_assoc. apply Hx. intros _ s3. rewrite bind_assoc. reflexivity.
  Qed.
End Flat.
