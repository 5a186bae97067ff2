(** Asynchronous CV access: requests *)
From Verif Require Import Prelude Address Instruction Checksum Datagram Speed Packets Backoff RxState Rx ZBits RxLogic RxInv Comm
  SpecCodec CodecProofs CodecProofs2 SpecRx RxBitProofs RxBitProofs4 SpecExec ExecProofs SpecConf ConfProofs SpecCv CvProofs CvProofs2 CvProofs3 CvProofs4 CvProofs7
  SpecAsync.

Section Defer.
  Context {I : Type} (E : Env I) (HD : deferring E).
  Implicit Types s : st I.
  Let hc := e_high_current E.

  (** Configuration with the identifiers of the command station *)
  Definition cfg (r : rx) := (primary (r_addrs r), consist (r_addrs r), r_conf r, cid_front (r_logon r), sid_front (r_logon r)).
  Definition last_of {A} (c d : option A) : option A := match d with Some _ => d | None => c end.
  Definition set_up (c : option (Z -> Z)) s s' : Prop :=
    match c with Some c => configured c s' | None => cfg (rxs s') = cfg (rxs s) end.
  Definition is_ack (e : event) : bool := match e with EServiceAck => true | _ => false end.

  (** [m] only requests accesses. [k]: it may acknowledge. *)
  Definition asks {A} (k : bool) (m : M (I := I) A) : Prop := forall s a s' es, m s = Ok (a, s', es) ->
    pending s' = pending s ++ map outstanding (accesses es) /\
    Forall (fun e => sync_access e = false) es /\ (k = false -> acks_of es = 0%nat) /\
    (answer_queue s' = answer_queue s \/ answer_queue s' = []) /\
    exists c, rereads hc es c /\ set_up c s s'.

  Lemma rereads_app : forall es c, rereads hc es c -> forall fs d, rereads hc fs d -> rereads hc (es ++ fs) (last_of c d).
  Proof.
    induction 1 as [|e c es d Ha _ IH|e es d Ha Hr _ IH]; intros fs d' Hf.
    - destruct d'; exact Hf.
    - cbn [List.app]. rewrite <- app_assoc.
      replace (last_of (match d with Some d => Some d | None => Some c end) d') with
        (match last_of d d' with Some d => Some d | None => Some c end) by (destruct d, d'; reflexivity).
      apply reread_config; [exact Ha|]. apply IH. exact Hf.
    - cbn [List.app]. apply reread_other; auto.
  Qed.
  Lemma configured_cfg : forall c s s', cfg (rxs s') = cfg (rxs s) -> configured c s -> configured c s'.
  Proof.
    intros c s s' H ((H1 & H2 & H3) & H4 & H5 & H6). unfold cfg in H. injection H as K1 K2 K3 K4 K5.
    unfold configured, active. rewrite K1, K2, K3, K4, K5. repeat split; assumption.
  Qed.
  Lemma set_up_trans : forall c d s s1 s2, set_up c s s1 -> set_up d s1 s2 -> set_up (last_of c d) s s2.
  Proof.
    intros c [d|] s s1 s2 H1 H2; [exact H2|]. cbn [last_of set_up] in *. destruct c as [c|]; cbn [set_up] in *.
    - eapply configured_cfg; eassumption.
    - congruence.
  Qed.
  Lemma asks_bind : forall A B k (m : M (I := I) A) (f : A -> M B), asks k m -> (forall a, asks k (f a)) -> asks k (bind m f).
  Proof.
    intros A B k m f Hm Hf s b s' es H. apply bind_inv in H. destruct H as (a & s1 & e1 & e2 & H1 & H2 & ->).
    apply Hm in H1. apply Hf in H2. destruct H1 as (P1 & Q1 & R1 & S1 & c & T1 & U1). destruct H2 as (P2 & Q2 & R2 & S2 & d & T2 & U2).
    split; [rewrite P2, P1, accesses_app, map_app, app_assoc; reflexivity|]. split; [apply Forall_app; auto|].
    split; [intros Hk; unfold acks_of in *; rewrite filter_app, app_length, R1, R2 by exact Hk; reflexivity|].
    split; [destruct S2 as [->|S2]; [exact S1|right; exact S2]|].
    exists (last_of c d). split; [apply rereads_app; assumption|eapply set_up_trans; eassumption].
  Qed.
  Lemma asks_quiet : forall A k (m : M (I := I) A), (forall s a s' es, m s = Ok (a, s', es) ->
    pending s' = pending s /\ es = [] /\ (answer_queue s' = answer_queue s \/ answer_queue s' = []) /\ cfg (rxs s') = cfg (rxs s)) -> asks k m.
  Proof.
    intros A k m H s a s' es Hm. apply H in Hm. destruct Hm as (-> & -> & Ha & Hc). cbn. rewrite app_nil_r.
    split; [reflexivity|]. split; [constructor|]. split; [reflexivity|]. split; [exact Ha|]. exists None. split; [constructor|exact Hc].
  Qed.
  Lemma asks_ret : forall A k (a : A), asks k (ret a).
  Proof. intros A k a. apply asks_quiet. intros s b s' es H. unfold ret in H. inversion H; subst. auto. Qed.
  Lemma asks_fail : forall A k r, asks k (fail (A := A) r).
  Proof. intros A k r s b s' es H. discriminate H. Qed.
  Lemma asks_lift : forall A k (m : res A), asks k (lift m).
  Proof. intros A k [a|r]; apply asks_quiet; intros s b s' es H; inversion H; subst; auto. Qed.
  Lemma asks_get : forall k, asks k get.
  Proof. intros k. apply asks_quiet. intros s b s' es H. unfold get in H. inversion H; subst. auto. Qed.
  Lemma asks_at : forall k bs i, asks k (at_ bs i).
  Proof. intros k bs i. unfold at_. destruct (nth_error bs i); [apply asks_ret|apply asks_fail]. Qed.
  Lemma asks_modify : forall k f, (forall r, cfg (f r) = cfg r) ->
    (forall r, pom_deque (r_bidi (f r)) = pom_deque (r_bidi r) \/ pom_deque (r_bidi (f r)) = []) -> asks k (modify f).
  Proof. intros k f Hc Hp. apply asks_quiet. intros s b s' es H. unfold modify in H. inversion H; subst. split; [reflexivity|]. split; [reflexivity|]. split; [apply Hp|apply Hc]. Qed.
  Lemma asks_rand : forall k, asks k (rand E).
  Proof. intros k. apply asks_quiet. intros s b s' es H. unfold rand in H. destruct (e_rand E (app s)). inversion H; subst. auto. Qed.
  Lemma asks_call : forall k e, accesses [e] = [] -> sync_access e = false -> is_read e = false -> ~ asks_config e ->
    (k = false -> is_ack e = false) -> asks k (call E e).
  Proof.
    intros k e Ha Hs Hr Hc Hk s b s' es H. unfold call in H. inversion H; subst. rewrite Ha, app_nil_r. cbn [pending].
    split; [reflexivity|]. split; [repeat constructor; exact Hs|].
    split; [intros K; specialize (Hk K); destruct e; cbn in Hk |- *; congruence|]. split; [left; reflexivity|].
    exists None. split; [apply reread_other; [assumption|assumption|constructor]|reflexivity].
  Qed.
  Lemma async_event : forall e c s u s' es, call_async E e c s = Ok (u, s', es) ->
    es = [e] /\ rxs s' = rxs s /\ pending s' = pending s ++ [c].
  Proof.
    intros e c s u s' es H. destruct HD as (_ & _ & Hn). unfold call_async in H. specialize (Hn (app s) e).
    destruct (e_async E (app s) e) as [v i]. cbn in Hn. subst v. inversion H; subst. auto.
  Qed.
  Lemma asks_async : forall k e x, accesses [e] = [x] -> sync_access e = false -> is_read e = false -> ~ asks_config e -> is_ack e = false ->
    asks k (call_async E e (outstanding x)).
  Proof.
    intros k e x Ha Hs Hr Hc Hk s u s' es H. apply async_event in H. destruct H as (-> & Hx & Hp). rewrite Ha. cbn [map].
    split; [exact Hp|]. split; [repeat constructor; exact Hs|]. split; [intros _; destruct e; cbn in Hk |- *; congruence|].
    split; [left; unfold answer_queue; rewrite Hx; reflexivity|].
    exists None. split; [apply reread_other; [assumption|assumption|constructor]|cbn; rewrite Hx; reflexivity].
  Qed.

  Lemma config_cv : forall a, existsb (Z.eqb a) init_cvs = true <-> In (a + 1) [1; 15; 16; 17; 18; 19; 20; 28; 29].
  Proof.
    intros a. rewrite existsb_exists. split.
    - intros (x & Hx & He). apply Z.eqb_eq in He. subst x. cbn in Hx |- *. lia.
    - intros H. exists a. split; [|apply Z.eqb_refl]. cbn in H |- *. lia.
  Qed.
  Lemma asks_then : forall k e x a, accesses [e] = [x] -> sync_access e = false -> is_read e = false -> is_ack e = false ->
    (asks_config e <-> In (a + 1) [1; 15; 16; 17; 18; 19; 20; 28; 29]) ->
    asks k (bind (call_async E e (outstanding x)) (fun _ => reinit E a)).
  Proof.
    intros k e x a Ha Hs Hr Hk Hc s u s' es H. apply bind_inv in H. destruct H as ([] & s1 & e1 & e2 & H1 & H2 & ->).
    apply async_event in H1. destruct H1 as (-> & Hx & Hp).
    unfold reinit in H2. destruct (existsb (Z.eqb a) init_cvs) eqn:Ee; cbn [when] in H2.
    - apply config_cv, Hc in Ee. destruct u. apply init_configures in H2. destruct H2 as (c & _ & -> & Hcf & Hu).
      unfold unconfigured in Hu. injection Hu as _ _ _ Hbd _ _ Hpd _ _ _.
      assert (Hq : accesses (config_calls c (e_high_current E)) = [] /\ Forall (fun e => sync_access e = false) (config_calls c (e_high_current E)) /\
        acks_of (config_calls c (e_high_current E)) = 0%nat).
      { unfold config_calls. destruct (bit_of (cv c 29) 5), (e_high_current E); (split; [reflexivity|]; split; [repeat constructor|reflexivity]). }
      destruct Hq as (Q1 & Q2 & Q3).
      split; [rewrite accesses_app, Ha, Q1, Hpd, Hp; reflexivity|].
      split; [constructor; [exact Hs|exact Q2]|]. split.
      { intros _. unfold acks_of in *. cbn [List.app filter]. destruct e; cbn in Hk |- *; try discriminate Hk; exact Q3. }
      split; [left; unfold answer_queue; congruence|].
      exists (Some c). split; [|exact Hcf]. cbn [List.app]. rewrite <- (app_nil_r (config_calls c (e_high_current E))).
      apply (reread_config hc e c [] None Ee). constructor.
    - assert (~ asks_config e) as Hn by (intros K; apply Hc, config_cv in K; congruence).
      unfold ret in H2. assert (s' = s1) as -> by congruence. assert (e2 = []) as -> by congruence. rewrite app_nil_r, Ha. cbn [map].
      split; [exact Hp|]. split; [repeat constructor; exact Hs|]. split; [intros _; destruct e; cbn in Hk |- *; congruence|].
      split; [left; unfold answer_queue; rewrite Hx; reflexivity|].
      exists None. split; [apply reread_other; [assumption|assumption|constructor]|cbn; rewrite Hx; reflexivity].
  Qed.
  Lemma asks_if : forall A k (b : bool) (m m' : M (I := I) A), asks k m -> asks k m' -> asks k (if b then m else m').
  Proof. intros A k [] m m' H H'; assumption. Qed.
  Lemma asks_cvVerify : forall k a v, asks k (cvVerify E a v).
  Proof.
    intros k a v. unfold cvVerify. destruct HD as (-> & _). apply asks_bind; [apply asks_get|]. intros r. apply asks_if; [apply asks_ret|].
    apply (asks_async k _ (Check a v)); auto.
  Qed.
  Lemma asks_cvVerifyBit : forall k a v p, asks k (cvVerifyBit E a v p).
  Proof.
    intros k a v p. unfold cvVerifyBit. destruct HD as (-> & _). apply asks_bind; [apply asks_get|]. intros r. apply asks_if; [apply asks_ret|].
    apply (asks_async k _ (CheckBit a v p)); auto.
  Qed.
  Lemma asks_cvWrite : forall k a v, asks k (cvWrite E a v).
  Proof.
    intros k a v. unfold cvWrite. destruct HD as (_ & -> & _). apply asks_bind; [apply asks_get|]. intros r. apply asks_if; [apply asks_ret|].
    apply (asks_then k _ (Store a v)); try reflexivity; auto.
  Qed.
  Lemma asks_cvWriteBit : forall k a v p, asks k (cvWriteBit E a v p).
  Proof.
    intros k a v p. unfold cvWriteBit. destruct HD as (_ & -> & _). apply asks_bind; [apply asks_get|]. intros r. apply asks_if; [apply asks_ret|].
    apply (asks_then k _ (StoreBit a v p)); try reflexivity; auto.
  Qed.

  Ltac asks1 :=
    lazymatch goal with
    | |- asks _ (bind _ _) => apply asks_bind; [|intro]
    | |- asks _ (ret _) => apply asks_ret
    | |- asks _ (fail _) => apply asks_fail
    | |- asks _ (lift _) => apply asks_lift
    | |- asks _ get => apply asks_get
    | |- asks _ (at_ _ _) => apply asks_at
    | |- asks _ (call _ _) => apply asks_call; [reflexivity|reflexivity|reflexivity|exact (fun f => f)|intros; try reflexivity]
    | |- asks _ (rand _) => apply asks_rand
    | |- asks _ (cvVerify _ _ _) => apply asks_cvVerify
    | |- asks _ (cvVerifyBit _ _ _ _) => apply asks_cvVerifyBit
    | |- asks _ (cvWrite _ _ _) => apply asks_cvWrite
    | |- asks _ (cvWriteBit _ _ _ _) => apply asks_cvWriteBit
    | |- asks _ (modify _) => apply asks_modify; [intros ?; reflexivity|intros ?; first [left; reflexivity|right; reflexivity]]
    | |- asks _ (when ?b _) => unfold when
    | |- asks _ (if ?b then _ else _) => destruct b
    | |- asks _ (match ?x with _ => _ end) => destruct x
    | |- asks _ (let _ := _ in _) => cbv zeta
    | |- asks _ ?m => let h := head_of m in unfold h
    end.
  Ltac asks_tac := repeat asks1.

  Lemma asks_dispatch : forall k n bs, asks k (dispatch E n bs).
  Proof. intros k n bs. asks_tac. Qed.
  Lemma asks_long : forall k n bs, asks k (cvLong E n bs).
  Proof. intros k n bs. asks_tac. Qed.
  Lemma asks_register : forall bs, asks true (registerMode E bs).
  Proof. intros bs. asks_tac. discriminate. Qed.
  Lemma asks_service : asks true (executeService E).
  Proof. asks_tac; discriminate. Qed.
  Lemma register_quiet : forall p s s' es, Forall byte p -> registerMode E p s = Ok (tt, s', es) -> hd 0 p mod 16 <> 5 -> acks_of es = 0%nat.
  Proof.
    intros p s s' es Hb H Hn. unfold registerMode in H. destruct p as [|p0 p]; [discriminate H|]. inversion Hb as [|? ? Hb0 _]; subst.
    cbn [at_ nth_error] in H. rewrite bind_ret in H. cbv zeta in H. rewrite bind_get in H. cbn [hd] in Hn.
    assert (K : forall m : M (I := I) unit, asks false m -> m s = Ok (tt, s', es) -> acks_of es = 0%nat).
    { intros m Hm H'. apply Hm in H'. apply H'. reflexivity. }
    revert H. apply K. destruct (Z.land p0 7 <=? 3); [asks_tac|]. destruct (Z.land p0 7 =? 4); [asks_tac|].
    destruct (Z.eqb_spec (Z.land p0 7) 5) as [E5|_]; [|asks_tac].
    apply asks_bind; [apply asks_at|]. intros b1. destruct (Z.testbit p0 3) eqn:E3; [asks_tac|]. exfalso. apply Hn.
    revert E3 E5. clear -Hb0. revert p0 Hb0. 
    assert (forallb (fun x => implb (negb (Z.testbit x 3) && (Z.land x 7 =? 5)) (x mod 16 =? 5)) (map Z.of_nat (seq 0 256)) = true) as Hs by (vm_compute; reflexivity).
    intros x Hx H3 H5. rewrite forallb_forall in Hs. specialize (Hs x).
    rewrite H3, H5 in Hs. cbn [negb andb Z.eqb Pos.eqb implb] in Hs. apply Z.eqb_eq, Hs, in_map_iff. exists (Z.to_nat x). unfold byte in Hx.
    split; [lia|]. apply in_seq. lia.
  Qed.

  Lemma requests : forall s p q b s' es, reached E s -> ready s p q -> execute E s = Ok (b, s', es) ->
    exists e1 e2, es = e1 ++ e2 /\ storing s e1 /\
      pending s' = pending s ++ map outstanding (accesses e2) /\ Forall (fun e => sync_access e = false) e2 /\
      (answer_queue s' = answer_queue s \/ answer_queue s' = []) /\
      (~ page_verify s p -> acks_of es = 0%nat) /\
      exists c, rereads hc e2 c /\ match c with Some c => configured c s' | None => configuration s' = configuration s end.
  Proof.
    intros s p q b s' es Hre Hr H.
    destruct (execute_cases E s b s' es Hre H) as [(_ & _ & _ & Hx)|(p' & q' & s1 & s2 & e1 & e2 & Hr' & Hb & Hl & Hk & Hp & Hs & -> & -> & Hd & _ & Hc)];
      [destruct (Hx _ _ Hr)|].
    assert (p' = p) as -> by (destruct Hr, Hr'; congruence). assert (q' = q) as -> by (destruct Hr, Hr'; congruence).
    exists e1, e2. split; [reflexivity|]. split; [exact Hs|].
    assert (He1 : acks_of e1 = 0%nat).
    { destruct Hs as [Hs _]. unfold acks_of.
      clear -Hs. induction Hs as [|e es He _ IH]; [reflexivity|]. destruct e; cbn in He |- *; try contradiction; exact IH. }
    assert (Hcf : configuration s1 = configuration s) by (unfold configuration; unfold hk in Hk; congruence).
    assert (Haq : answer_queue s1 = answer_queue s) by (unfold answer_queue; unfold hk in Hk; congruence).
    assert (G : pending s2 = pending s1 ++ map outstanding (accesses e2) /\
      Forall (fun e => sync_access e = false) e2 /\ (~ page_verify s p -> acks_of e2 = 0%nat) /\
      (answer_queue s2 = answer_queue s1 \/ answer_queue s2 = []) /\
      exists c, rereads hc e2 c /\ set_up c s1 s2).
    { destruct Hc as [(Hsv & u & Hc)|[(Hsv & _ & _ & n & u & _ & Hc)|(_ & _ & -> & -> & _)]].
      - assert (K := asks_service _ _ _ _ Hc). destruct K as (K1 & K2 & _ & K4 & K5). do 2 (split; [assumption|]).
        split; [|split; assumption]. intros Hpv.
        destruct (Z_le_dec 0x70 (hd 0 p)) as [H7|H7]; [destruct (Z_lt_dec (hd 0 p) 0x80) as [H8|H8]|].
        + destruct (service_inv E p q s1 u s2 e2 Hb Hd Hc (conj H7 H8)) as (S3 & S4 & S5).
          destruct (Nat.eq_dec (length p) 3) as [E3|E3].
          * apply (register_quiet p s1 s2 e2 Hb (S3 E3)). intros H5. apply Hpv. unfold page_verify. auto.
          * destruct (Nat.eq_dec (length p) 4) as [E4|E4].
            -- assert (K := asks_long false _ _ _ _ _ _ (S4 E4)). apply K. reflexivity.
            -- destruct (S5 E3 E4) as [_ ->]. reflexivity.
        + destruct (service_other E p q s1 u s2 e2 Hb Hl Hd Hc) as (_ & Hk0 & _); [lia|]. exact Hk0.
        + destruct (service_other E p q s1 u s2 e2 Hb Hl Hd Hc) as (_ & Hk0 & _); [lia|]. exact Hk0.
      - assert (K := asks_dispatch false _ _ _ _ _ _ Hc). destruct K as (K1 & K2 & K3 & K4 & K5). do 2 (split; [assumption|]).
        split; [intros _; apply K3; reflexivity|]. split; assumption.
      - cbn. rewrite app_nil_r. split; [reflexivity|]. split; [constructor|]. split; [reflexivity|]. split; [left; reflexivity|].
        exists None. split; [constructor|reflexivity]. }
    destruct G as (G1 & G2 & G3 & G4 & c & G5 & G6).
    split; [cbn [pop pending]; congruence|]. split; [exact G2|].
    split; [cbn; rewrite <- Haq; exact G4|]. split.
    { intros Hpv. rewrite acks_app, He1, G3 by exact Hpv. reflexivity. }
    exists c. split; [exact G5|]. destruct c as [c|].
    - eapply configured_cfg; [|exact G6]. reflexivity.
    - unfold set_up, cfg in G6. unfold configuration in *. cbn [pop rxs] in *. cbn. congruence.
  Qed.
End Defer.
