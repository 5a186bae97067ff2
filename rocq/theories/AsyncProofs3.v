(** Asynchronous CV access: answers *)
From Verif Require Import Prelude Address Instruction Checksum Datagram Speed Packets Backoff RxState Rx ZBits RxLogic RxInv Comm
  SpecCodec CodecProofs CodecProofs2 SpecRx RxBitProofs RxBitProofs4 SpecExec ExecProofs SpecConf ConfProofs SpecCv CvProofs CvProofs2 CvProofs3 CvProofs4 CvProofs7
  SpecAsync AsyncProofs2.

Section Callback.
  Context {I : Type}.
  Implicit Types s : st I.

  Definition hit (c : pend) (v : Z) (r : rx) : bool := service_mode (r_cv r) && agrees c v.
  Definition heard_by (d : list Z) (r : rx) : rx :=
    if negb (service_mode (r_cv r)) && ch2_data_enabled (r_conf r) then set_pom_deque [d] r else r.

  Lemma run_cb_shape : forall c v, exists d, coded (base64 2 (arrived c v)) d /\
    forall (E : Env I) r i p, run_cb E c v (Mk_st r i p) =
      Ok (tt, Mk_st (heard_by d r) (if hit c v r then e_hook E i EServiceAck else i) p, if hit c v r then [EServiceAck] else []).
  Proof.
    intros c v. assert (byte (arrived c v)) as Hv.
    { unfold arrived, byte. destruct c; [pose proof (Z.mod_pos_bound v 256); lia|destruct (negb _); cbn; lia]. }
    destruct (make12_coded _ Hv) as (d & Hd & Hc). exists d. split; [exact Hc|]. intros E r i p.
    assert (Hp : pom (arrived c v) (Mk_st r i p) = Ok (tt, Mk_st (if ch2_data_enabled (r_conf r) then set_pom_deque [d] r else r) i p, [])).
    { unfold pom. rewrite bind_get. cbn [rxs]. destruct (ch2_data_enabled (r_conf r)); cbn [negb]; [|reflexivity].
      rewrite Hd, bind_lift. reflexivity. }
    unfold hit, heard_by. destruct c as [b|b]; cbn [run_cb agrees arrived] in *; unfold cb_byte, cb_bit; rewrite bind_get; cbn [rxs];
      destruct (service_mode (r_cv r)); cbn [negb andb].
    - change (u8 v) with (v mod 256). destruct (b =? v mod 256); reflexivity.
    - exact Hp.
    - destruct (Bool.eqb b (negb (v =? 0))); reflexivity.
    - exact Hp.
  Qed.

  Lemma callback_effect : forall (E : Env I) s i c v, nth_error (pending s) i = Some c ->
    exists s', step E (OCallback i v) s = Ok (false, s', if in_service s && agrees c v then [EServiceAck] else []) /\
      (if negb (in_service s) && railcom_on s then answers s' (arrived c v) else answer_queue s' = answer_queue s) /\
      app s' = (if in_service s && agrees c v then e_hook E (app s) EServiceAck else app s) /\
      set_pom_deque [] (rxs s') = set_pom_deque [] (rxs s) /\ pending s' = pending s.
  Proof.
    intros E s i c v Hn. destruct (run_cb_shape c v) as (d & Hd & H). cbn [step]. rewrite Hn. unfold bind.
    destruct s as [r j p]. rewrite H. eexists. split; [unfold ret; cbn; rewrite app_nil_r; reflexivity|].
    unfold in_service, railcom_on, answer_queue, answers, hit, heard_by. cbn [rxs app pending].
    destruct (service_mode (r_cv r)); cbn [negb andb]; [auto|].
    destruct (ch2_data_enabled (r_conf r)); [|auto]. split; [exists d; auto|]. split; [reflexivity|]. split; [|reflexivity].
    destruct r as [? ? ? ? ? ? [] ? ?]; reflexivity.
  Qed.
End Callback.

Section Later.
  Context {I : Type} (E : Env I) (HD : deferring E) (v : Z).
  Implicit Types s : st I.
  Let F := at_once v E.

  Definition still {A} (m : M (I := I) A) : Prop := forall s a s' es, m s = Ok (a, s', es) -> pending s' = pending s.
  Definition later {A} (m m' : M (I := I) A) : Prop := forall s a s' es, m s = Ok (a, s', es) ->
    (exists l, pending s' = pending s ++ l) /\
    (pending s' = pending s -> m' s = Ok (a, s', es)) /\
    (forall c s2 e2, pending s' = pending s ++ [c] -> existsb is_read es = false -> run_cb E c v s' = Ok (tt, s2, e2) ->
      exists s3, m' s = Ok (a, s3, es ++ e2) /\ without_pending s3 = without_pending s2 /\ pending s3 = pending s).

  Lemma grown : forall (l : list pend) c, l <> l ++ [c].
  Proof. intros l c H. apply (f_equal (@length pend)) in H. rewrite app_length in H. cbn in H. lia. Qed.
  Lemma later_still : forall A (m m' : M (I := I) A), m' = m -> still m -> later m m'.
  Proof.
    intros A m m' -> Hs s a s' es H. pose proof (Hs _ _ _ _ H) as Hp. split; [exists []; rewrite app_nil_r; exact Hp|]. split; [intros _; exact H|].
    intros c s2 e2 Hc. rewrite Hp in Hc. destruct (grown _ _ Hc).
  Qed.
  Lemma later_bind : forall A B (m m' : M (I := I) A) (f f' : A -> M B), m' = m -> still m -> (forall a, later (f a) (f' a)) -> later (bind m f) (bind m' f').
  Proof.
    intros A B m m' f f' -> Hs Hf s b s' es H. apply bind_inv in H. destruct H as (a & s1 & e1 & e2 & H1 & H2 & ->).
    pose proof (Hs _ _ _ _ H1) as Hp. destruct (Hf a _ _ _ _ H2) as ((l & Hl) & Ha & Hb). rewrite Hp in *.
    split; [exists l; exact Hl|]. unfold bind. rewrite H1. split.
    - intros Hx. rewrite (Ha Hx). reflexivity.
    - intros c s2 e3 Hc Hr Hrun. rewrite existsb_app in Hr. apply orb_false_elim in Hr. destruct Hr as [_ Hr].
      destruct (Hb c s2 e3 Hc Hr Hrun) as (s3 & K & K2 & K3). rewrite K, app_assoc. exists s3. auto.
  Qed.
  Lemma later_tail : forall A (m m' : M (I := I) A) B (x : B), later m m' -> later (bind m (fun _ => ret x)) (bind m' (fun _ => ret x)).
  Proof.
    intros A m m' B x Hm s b s' es H. apply bind_inv in H. destruct H as (a & s1 & e1 & e2 & H1 & H2 & ->).
    unfold ret in H2. assert (s' = s1) as -> by congruence. assert (b = x) as -> by congruence. assert (e2 = []) as -> by congruence. rewrite app_nil_r.
    destruct (Hm _ _ _ _ H1) as (Hl & Ha & Hb). split; [exact Hl|]. unfold bind. split.
    - intros Hx. rewrite (Ha Hx). unfold ret. rewrite app_nil_r. reflexivity.
    - intros c s2 e3 Hc Hr Hrun. destruct (Hb c s2 e3 Hc Hr Hrun) as (s3 & -> & K). exists s3. unfold ret. rewrite app_nil_r. auto.
  Qed.
  Lemma later_async : forall e c, later (call_async E e c) (call_async F e c).
  Proof.
    intros e c s a s' es H. pose proof (async_event E HD _ _ _ _ _ _ H) as (He & Hx & Hp). subst es.
    split; [exists [c]; exact Hp|]. split; [intros K; rewrite Hp in K; symmetry in K; destruct (grown _ _ K)|].
    intros c' s2 e2 Hc _ Hrun. assert (c' = c) as -> by (rewrite Hp in Hc; apply app_inv_head in Hc; congruence).
    destruct HD as (_ & _ & Hn). unfold call_async in H |- *. unfold F, at_once, with_async. cbn [e_async]. specialize (Hn (app s) e).
    destruct (e_async E (app s) e) as [o i]. cbn [fst snd] in Hn |- *. subst o.
    assert (s' = Mk_st (rxs s) i (pending s ++ [c])) as -> by congruence.
    destruct (run_cb_shape (I := I) c v) as (d & _ & Hs). rewrite Hs in Hrun. fold (with_async true true (fun i e => (Some v, snd (e_async E i e))) E).
    rewrite Hs. destruct a. eexists. split; [|split].
    - assert (e2 = if hit c v (rxs s) then [EServiceAck] else []) as -> by congruence. reflexivity.
    - assert (s2 = Mk_st (heard_by d (rxs s)) (if hit c v (rxs s) then e_hook E i EServiceAck else i) (pending s ++ [c])) as -> by congruence. reflexivity.
    - reflexivity.
  Qed.
  Lemma later_write : forall e c a, later (bind (call_async E e c) (fun _ => reinit E a)) (bind (call_async F e c) (fun _ => reinit F a)).
  Proof.
    intros e c a. unfold reinit. destruct (existsb (Z.eqb a) init_cvs); cbn [when]; [|apply later_tail, later_async].
    intros s u s' es H. apply bind_inv in H. destruct H as ([] & s1 & e1 & e2 & H1 & H2 & ->).
    apply (async_event E HD) in H1. destruct H1 as (-> & Hx & Hp). destruct u. apply init_configures in H2. destruct H2 as (k & _ & -> & _ & Hu).
    unfold unconfigured in Hu. assert (pending s' = pending s ++ [c]) as Hq by congruence.
    split; [exists [c]; exact Hq|]. split; [intros K; rewrite Hq in K; symmetry in K; destruct (grown _ _ K)|].
    intros c' s2 e2 _ Hr _. exfalso. cbn [List.app existsb] in Hr. apply orb_false_elim in Hr. destruct Hr as [_ Hr].
    unfold config_calls in Hr. cbn in Hr. discriminate Hr.
  Qed.
  Lemma still_bind : forall A B (m : M (I := I) A) (f : A -> M B), still m -> (forall a, still (f a)) -> still (bind m f).
  Proof.
    intros A B m f Hm Hf s b s' es H. apply bind_inv in H. destruct H as (a & s1 & e1 & e2 & H1 & H2 & ->).
    rewrite (Hf _ _ _ _ _ H2). eapply Hm. exact H1.
  Qed.
  Lemma still_ret : forall A (a : A), still (ret a). Proof. intros A a s b s' es H. unfold ret in H. congruence. Qed.
  Lemma still_fail : forall A r, still (fail (A := A) r). Proof. intros A r s b s' es H. discriminate H. Qed.
  Lemma still_lift : forall A (m : res A), still (lift m). Proof. intros A [a|r] s b s' es H; [unfold lift in H; congruence|discriminate H]. Qed.
  Lemma still_get : still get. Proof. intros s b s' es H. unfold get in H. congruence. Qed.
  Lemma still_at : forall bs i, still (at_ bs i). Proof. intros bs i. unfold at_. destruct (nth_error bs i); [apply still_ret|apply still_fail]. Qed.
  Lemma still_modify : forall f, still (modify f). Proof. intros f s b s' es H. unfold modify in H. inversion H; subst. reflexivity. Qed.
  Lemma still_call : forall e, still (call E e). Proof. intros e s b s' es H. unfold call in H. inversion H; subst. reflexivity. Qed.
  Lemma still_rand : still (rand E). Proof. intros s b s' es H. unfold rand in H. destruct (e_rand E (app s)). inversion H; subst. reflexivity. Qed.
  Ltac still1 :=
    lazymatch goal with
    | |- still (bind _ _) => apply still_bind; [|intro]
    | |- still (ret _) => apply still_ret
    | |- still (fail _) => apply still_fail
    | |- still (lift _) => apply still_lift
    | |- still get => apply still_get
    | |- still (at_ _ _) => apply still_at
    | |- still (call _ _) => apply still_call
    | |- still (rand _) => apply still_rand
    | |- still (modify _) => apply still_modify
    | |- still (when ?b _) => unfold when
    | |- still (if ?b then _ else _) => destruct b
    | |- still (match ?x with _ => _ end) => destruct x
    | |- still (let _ := _ in _) => cbv zeta
    | |- still ?m => let h := head_of m in unfold h
    end.
  Ltac still_tac := repeat still1.

  Lemma later_if : forall A (b : bool) (m m' n n' : M (I := I) A), later m m' -> later n n' -> later (if b then m else n) (if b then m' else n').
  Proof. intros A [] m m' n n' H H'; assumption. Qed.
  Lemma later_ret : forall A (a : A), later (ret a) (ret a).
  Proof. intros A a. apply later_still; [reflexivity|apply still_ret]. Qed.
  Lemma later_cvVerify : forall a b, later (cvVerify E a b) (cvVerify F a b).
  Proof.
    intros a b. unfold cvVerify. change (e_async_readable F) with true. destruct HD as (-> & _).
    apply later_bind; [reflexivity|apply still_get|]. intros r. apply later_if; [apply later_ret|apply later_async].
  Qed.
  Lemma later_cvVerifyBit : forall a b k, later (cvVerifyBit E a b k) (cvVerifyBit F a b k).
  Proof.
    intros a b k. unfold cvVerifyBit. change (e_async_readable F) with true. destruct HD as (-> & _).
    apply later_bind; [reflexivity|apply still_get|]. intros r. apply later_if; [apply later_ret|apply later_async].
  Qed.
  Lemma later_cvWrite : forall a b, later (cvWrite E a b) (cvWrite F a b).
  Proof.
    intros a b. unfold cvWrite. change (e_async_writable F) with true. destruct HD as (_ & -> & _).
    apply later_bind; [reflexivity|apply still_get|]. intros r. apply later_if; [apply later_ret|apply later_write].
  Qed.
  Lemma later_cvWriteBit : forall a b k, later (cvWriteBit E a b k) (cvWriteBit F a b k).
  Proof.
    intros a b k. unfold cvWriteBit. change (e_async_writable F) with true. destruct HD as (_ & -> & _).
    apply later_bind; [reflexivity|apply still_get|]. intros r. apply later_if; [apply later_ret|apply later_write].
  Qed.

  (** Two writes or more *)
  Lemma write_locked : forall (E : Env I) a b s, cvs_locked (r_conf (rxs s)) = true -> a <> 14 -> cvWrite E a b s = Ok (tt, s, []).
  Proof. intros E' a b s H Ha. unfold cvWrite. rewrite bind_get, H. destruct (Z.eqb_spec a 14); [lia|reflexivity]. Qed.
  Lemma write_grows : forall a b s s' es, cvs_locked (r_conf (rxs s)) = false -> existsb (Z.eqb a) init_cvs = false -> cvWrite E a b s = Ok (tt, s', es) ->
    pending s' = pending s ++ [PendByte b] /\ rxs s' = rxs s.
  Proof.
    intros a b s s' es H Ha Hw. unfold cvWrite in Hw. rewrite bind_get, H in Hw. destruct HD as (_ & Hwr & _). rewrite Hwr in Hw. cbn [andb] in Hw.
    apply bind_inv in Hw. destruct Hw as ([] & s1 & e1 & e2 & H1 & H2 & ->). apply (async_event E HD) in H1. destruct H1 as (-> & Hx & Hp).
    unfold reinit in H2. rewrite Ha in H2. cbn [when] in H2. unfold ret in H2. assert (s' = s1) as -> by congruence. auto.
  Qed.
  Lemma later_two : forall b1 (bs : list Z), 
    later (bind (cvWrite E 30 b1) (fun _ => bind (at_ bs 2) (fun b2 => cvWrite E 31 b2)))
      (bind (cvWrite F 30 b1) (fun _ => bind (at_ bs 2) (fun b2 => cvWrite F 31 b2))).
  Proof.
    intros b1 bs s u s' es H. destruct (cvs_locked (r_conf (rxs s))) eqn:El.
    - apply bind_inv in H. destruct H as ([] & s1 & e1 & e2 & H1 & H2 & ->). rewrite write_locked in H1 by (try exact El; lia).
      assert (s1 = s) as -> by congruence. assert (e1 = []) as -> by congruence.
      apply bind_inv in H2. destruct H2 as (b2 & s1 & e1 & e3 & H2 & H3 & ->).
      assert (s1 = s) as -> by (unfold at_ in H2; destruct (nth_error bs 2); [unfold ret in H2; congruence|discriminate H2]).
      rewrite write_locked in H3 by (try exact El; lia). assert (s' = s) as -> by congruence. assert (e3 = []) as -> by congruence.
      split; [exists []; rewrite app_nil_r; reflexivity|]. split; [|intros c s2 e2 K; destruct (grown _ _ K)].
      intros _. unfold bind. rewrite write_locked by (try exact El; lia). rewrite H2, write_locked by (try exact El; lia). congruence.
    - apply bind_inv in H. destruct H as ([] & s1 & e1 & e2 & H1 & H2 & ->). apply write_grows in H1; [|exact El|reflexivity]. destruct H1 as [P1 X1].
      apply bind_inv in H2. destruct H2 as (b2 & s3 & e3 & e4 & H2 & H3 & ->).
      assert (s3 = s1) as -> by (unfold at_ in H2; destruct (nth_error bs 2); [unfold ret in H2; congruence|discriminate H2]).
      destruct u. apply write_grows in H3; [|rewrite X1; exact El|reflexivity]. destruct H3 as [P3 X3].
      assert (P : pending s' = pending s ++ [PendByte b1; PendByte b2]) by (rewrite P3, P1, <- app_assoc; reflexivity).
      split; [exists [PendByte b1; PendByte b2]; exact P|]. split.
      + intros K. rewrite P in K. apply (f_equal (@length pend)) in K. rewrite app_length in K. cbn in K. lia.
      + intros c s2 e5 K. rewrite P in K. apply app_inv_head in K. discriminate K.
  Qed.
  Lemma writebit_locked : forall (E : Env I) a b k s, cvs_locked (r_conf (rxs s)) = true -> a <> 14 -> cvWriteBit E a b k s = Ok (tt, s, []).
  Proof. intros E' a b k s H Ha. unfold cvWriteBit. rewrite bind_get, H. destruct (Z.eqb_spec a 14); [lia|reflexivity]. Qed.
  Lemma later_long_address : forall b1 (bs : list Z),
    later (bind (cvWrite E 16 b1) (fun _ => bind (at_ bs 2) (fun b2 => bind (cvWrite E 17 b2) (fun _ => cvWriteBit E 28 true 5))))
      (bind (cvWrite F 16 b1) (fun _ => bind (at_ bs 2) (fun b2 => bind (cvWrite F 17 b2) (fun _ => cvWriteBit F 28 true 5)))).
  Proof.
    intros b1 bs s u s' es H. destruct (cvs_locked (r_conf (rxs s))) eqn:El.
    - apply bind_inv in H. destruct H as ([] & s1 & e1 & e2 & H1 & H2 & ->). rewrite write_locked in H1 by (try exact El; lia).
      assert (s1 = s) as -> by congruence. assert (e1 = []) as -> by congruence.
      apply bind_inv in H2. destruct H2 as (b2 & s1 & e1 & e3 & H2 & H3 & ->).
      assert (s1 = s) as -> by (unfold at_ in H2; destruct (nth_error bs 2); [unfold ret in H2; congruence|discriminate H2]).
      apply bind_inv in H3. destruct H3 as ([] & s1 & e4 & e5 & H3 & H4 & ->).
      rewrite write_locked in H3 by (try exact El; lia). assert (s1 = s) as -> by congruence. assert (e4 = []) as -> by congruence.
      rewrite writebit_locked in H4 by (try exact El; lia). assert (s' = s) as -> by congruence. assert (e5 = []) as -> by congruence.
      split; [exists []; rewrite app_nil_r; reflexivity|]. split; [|intros c s2 e2 K; destruct (grown _ _ K)].
      intros _. unfold bind. rewrite write_locked by (try exact El; lia). rewrite H2, write_locked by (try exact El; lia).
      rewrite writebit_locked by (try exact El; lia). congruence.
    - apply bind_inv in H. destruct H as ([] & s1 & e1 & e2 & H1 & H2 & ->).
      assert (exists l, pending s' = pending s1 ++ l) as (l & Hl).
      { eexists. refine (proj1 ((_ : asks E true (bind (at_ bs 2) (fun b2 => bind (cvWrite E 17 b2) (fun _ => cvWriteBit E 28 true 5)))) s1 u s' e2 H2)).
        apply asks_bind; [apply asks_at|]. intros b2. apply asks_bind; [apply asks_cvWrite; exact HD|]. intros _. apply asks_cvWriteBit; exact HD. }
      unfold cvWrite in H1. rewrite bind_get, El in H1. destruct HD as (_ & Hwr & _). rewrite Hwr in H1. cbn [andb] in H1.
      apply bind_inv in H1. destruct H1 as ([] & s3 & e3 & e4 & H1 & H3 & ->). apply (async_event E HD) in H1. destruct H1 as (-> & _ & Hp).
      unfold reinit in H3. change (existsb (Z.eqb 16) init_cvs) with true in H3. cbn [when] in H3. apply init_configures in H3. destruct H3 as (k & _ & -> & _ & Hu).
      unfold unconfigured in Hu. assert (pending s' = pending s ++ PendByte b1 :: l) as P by (rewrite Hl; replace (pending s1) with (pending s3) by congruence; rewrite Hp, <- app_assoc; reflexivity).
      split; [eexists; exact P|]. split.
      + intros K. rewrite P in K. apply (f_equal (@length pend)) in K. rewrite app_length in K. cbn in K. lia.
      + intros c s2 e5 _ Hr _. exfalso. cbn [List.app existsb] in Hr. apply orb_false_elim in Hr. destruct Hr as [_ Hr].
        unfold config_calls in Hr. cbn in Hr. discriminate Hr.
  Qed.

  Ltac later1 :=
    lazymatch goal with
    | |- later (cvVerify _ _ _) _ => apply later_cvVerify
    | |- later (cvVerifyBit _ _ _ _) _ => apply later_cvVerifyBit
    | |- later (cvWrite _ _ _) _ => apply later_cvWrite
    | |- later (cvWriteBit _ _ _ _) _ => apply later_cvWriteBit
    | |- later (bind (cvWrite _ 16 _) _) _ => apply later_long_address
    | |- later (bind (cvWrite _ 30 _) _) _ => apply later_two
    | |- later (bind _ _) _ => apply later_bind; [reflexivity|solve [still_tac]|intro]
    | |- later (if ?b then _ else _) _ => destruct b
    | |- later (ret _) _ => apply later_ret
    | |- later (call _ _) _ => apply later_still; [reflexivity|apply still_call]
    | |- later (modify _) _ => apply later_still; [reflexivity|apply still_modify]
    end.
  Ltac later_tac := repeat later1.
  Lemma later_cvLong : forall n bs, later (cvLong E n bs) (cvLong F n bs).
  Proof. intros n bs. unfold cvLong. cbv zeta. later_tac. Qed.
  Lemma later_cvShort : forall n bs, later (cvShort E n bs) (cvShort F n bs).
  Proof. intros n bs. unfold cvShort. cbv zeta. later_tac. Qed.
  Lemma later_register : forall bs, later (registerMode E bs) (registerMode F bs).
  Proof. intros bs. unfold registerMode. cbv zeta. later_tac. Qed.
  Lemma later_consist : forall bs, later (consistControl E bs) (consistControl F bs).
  Proof. intros bs. unfold consistControl. later_tac. Qed.
  Lemma later_addressed : forall a bs, later (executeOperationsAddressed E a bs) (executeOperationsAddressed F a bs).
  Proof.
    intros a bs. unfold executeOperationsAddressed. cbv zeta. apply later_bind; [reflexivity|apply still_get|]. intros r.
    repeat match goal with |- later (if ?b then _ else _) _ => destruct b end; [| | |apply later_ret];
    (apply later_bind; [reflexivity|apply still_lift|]; intros i; apply later_tail;
      destruct i; lazymatch goal with
        | |- later (consistControl _ _) _ => apply later_consist
        | |- later (cvLong _ _ _) _ => apply later_cvLong
        | |- later (cvShort _ _ _) _ => apply later_cvShort
        | _ => apply later_still; [reflexivity|still_tac] end).
  Qed.
  Lemma later_command : later (executeCommand E) (executeCommand F).
  Proof.
    unfold executeCommand. apply later_bind; [reflexivity|apply still_get|]. intros r0. destruct (service_mode _).
    - unfold executeService. apply later_bind; [reflexivity|apply still_get|]. intros r. apply later_bind; [reflexivity|still_tac|]. intros p.
      apply later_bind; [reflexivity|still_tac|]. intros b. apply later_tail.
      repeat match goal with |- later (if ?b then _ else _) _ => destruct b end;
      lazymatch goal with |- later (registerMode _ _) _ => apply later_register | |- later (cvLong _ _ _) _ => apply later_cvLong
        | _ => apply later_still; [reflexivity|still_tac] end.
    - unfold executeOperations. apply later_bind; [reflexivity|apply still_get|]. intros r. apply later_bind; [reflexivity|still_tac|]. intros p.
      apply later_bind; [reflexivity|still_tac|]. intros a. destruct (atyp a);
      lazymatch goal with |- later (ret _) _ => apply later_ret | _ => apply later_addressed end.
  Qed.

  Lemma answered_later : forall s b s1 e1 c s2 e2, execute E s = Ok (b, s1, e1) -> pending s1 = pending s ++ [c] -> existsb is_read e1 = false ->
    step E (OCallback (length (pending s)) v) s1 = Ok (false, s2, e2) ->
    exists s', execute F s = Ok (b, s', e1 ++ e2) /\ without_pending s' = without_pending s2.
  Proof.
    intros s b s1 e1 c s2 e2 H Hp Hr Hc.
    cbn [step] in Hc. rewrite Hp, nth_error_app2, Nat.sub_diag in Hc by lia. cbn [nth_error] in Hc.
    apply bind_inv in Hc. destruct Hc as ([] & t & f1 & f2 & Hc & Hc2 & ->). unfold ret in Hc2.
    assert (t = s2) as -> by congruence. assert (f2 = []) as -> by congruence. rewrite app_nil_r. clear Hc2.
    assert (Hrd : exists p q, ready s p q).
    { unfold execute in H. rewrite bind_get in H. unfold ready. destruct (f_packet_end (r_fsm (rxs s))); [exfalso|].
      - cbn [orb] in H. unfold ret in H. assert (s1 = s) as -> by congruence. destruct (grown _ _ Hp).
      - destruct (r_deque (rxs s)) as [|p q]; [exfalso|exists p, q; auto].
        cbn [orb length Nat.eqb] in H. unfold ret in H. assert (s1 = s) as -> by congruence. destruct (grown _ _ Hp). }
    destruct Hrd as (p & q & Hrd).
    destruct (execute_housekeeping E s p q Hrd) as (t1 & g1 & Hh & _ & Hp1 & _ & HE).
    destruct (execute_housekeeping F s p q Hrd) as (t1' & g1' & Hh' & _ & _ & _ & HF).
    change (housekeeping F) with (housekeeping E) in Hh'. assert (t1' = t1) as -> by congruence. assert (g1' = g1) as -> by congruence. clear Hh'.
    rewrite H in HE. destruct (executeCommand E t1) as [[[b2 t2] g2]|] eqn:Ec; [|discriminate HE].
    assert (b2 = b) as -> by congruence. assert (s1 = pop q t2) as -> by congruence. assert (e1 = g1 ++ g2) as -> by congruence. clear HE.
    rewrite existsb_app in Hr. apply orb_false_elim in Hr. destruct Hr as [_ Hr].
    destruct (later_command _ _ _ _ Ec) as (_ & _ & HL). cbn [pop pending] in Hp.
    destruct (run_cb_shape (I := I) c v) as (d & _ & Hs).
    destruct (HL c (Mk_st (heard_by d (rxs t2)) (if hit c v (rxs t2) then e_hook E (app t2) EServiceAck else app t2) (pending t2)) (if hit c v (rxs t2) then [EServiceAck] else []))
      as (s3 & H3 & Hw & _).
    - rewrite Hp1. exact Hp.
    - exact Hr.
    - rewrite <- Hs. destruct t2; reflexivity.
    - rewrite H3 in HF. eexists. split; [rewrite HF, app_assoc; repeat f_equal|].
      + unfold pop in Hc. rewrite Hs in Hc. unfold hit in *. cbn [rxs set_r_deque] in Hc. cbn in Hc. congruence.
      + unfold pop in Hc |- *. rewrite Hs in Hc. unfold without_pending in *. cbn [rxs app] in *.
        assert (rxs s3 = heard_by d (rxs t2)) as -> by congruence. assert (app s3 = if hit c v (rxs t2) then e_hook E (app t2) EServiceAck else app t2) as -> by congruence.
        injection Hc as Hx _. rewrite <- Hx. cbn [rxs app].
        replace (heard_by d (set_r_deque q (rxs t2))) with (set_r_deque q (heard_by d (rxs t2))) by (unfold heard_by; destruct (rxs t2); cbn; destruct (negb _ && _); reflexivity).
        reflexivity.
  Qed.
End Later.

(** ** Until the answer *)
Section Silent.
  Context {I : Type} (E : Env I) (HD : deferring E).
  Implicit Types s : st I.

  Definition no_answer (r : rx) : Prop := pom_deque (r_bidi r) = [].
  Lemma no_answer_pom : holds no_answer (appPom E).
  Proof.
    apply holds_get_bind. intros r s Hr Hp b s' es H. subst r. unfold no_answer in Hp. rewrite Hp in H.
    repeat match type of H with context [if ?c then _ else _] => destruct c end; unfold ret, call in H; inversion H; subst; exact Hp.
  Qed.
  Lemma no_answer_dyn : forall ds, holds no_answer (@dyn_all I ds).
  Proof. induction ds as [|a ds IH]; [apply holds_ret|]. cbn [dyn_all]. apply holds_bind; [holds_tac|intro; exact IH]. Qed.
  Lemma no_ack_dyn : forall ds, emits (fun e => is_ack e = false) (@dyn_all I ds).
  Proof. induction ds as [|a ds IH]; [apply emits_ret|]. cbn [dyn_all]. apply emits_bind; [emits_tac|intro; exact IH]. Qed.
  Ltac na1 := lazymatch goal with |- holds _ (appPom _) => apply no_answer_pom | |- holds _ (dyn_all _) => apply no_answer_dyn | _ => holds1 end.
  Ltac nk1 := lazymatch goal with |- emits _ (dyn_all _) => apply no_ack_dyn | _ => emits1 end.
  Lemma other_quiet : forall o, o <> OExecute -> (forall j v, o <> OCallback j v) ->
    holds no_answer (step E o) /\ emits (fun e => is_ack e = false) (step E o).
  Proof.
    intros o Ho Hc. destruct o as [| | |t| |ds| | |j v]; try congruence; try (destruct (Hc j v); reflexivity); cbn [step].
    all: split; [repeat na1|repeat nk1; reflexivity].
  Qed.
  Lemma acks_none : forall es, Forall (fun e => is_ack e = false) es -> acks_of es = 0%nat.
  Proof. unfold acks_of. induction 1 as [|e es He _ IH]; [reflexivity|]. destruct e; cbn in He |- *; congruence. Qed.

  Lemma op_eq_exec : forall o : op, {o = OExecute} + {o <> OExecute}.
  Proof. intros [| | |t| |ds| | |j v]; try (right; discriminate). left; reflexivity. Qed.
  Lemma page_verify_dec : forall s p, {page_verify s p} + {~ page_verify s p}.
  Proof.
    intros s p. unfold page_verify. destruct (in_service s); [|right; intros (? & _); discriminate].
    destruct (Z_le_dec 0x70 (hd 0 p)); [|right; lia]. destruct (Z_lt_dec (hd 0 p) 0x80); [|right; lia].
    destruct (Nat.eq_dec (length p) 3); [|right; tauto]. destruct (Z.eq_dec (hd 0 p mod 16) 5); [left; auto|right; tauto].
  Qed.
  Lemma silent_until : forall i os s es, run E os (st0 i) = Ok (tt, s, es) -> (forall j v, ~ In (OCallback j v) os) ->
    answer_queue s = [] /\
    (acks_of es <> 0%nat -> exists os1 os2 s1 e1 p q, os = os1 ++ OExecute :: os2 /\ run E os1 (st0 i) = Ok (tt, s1, e1) /\
      ready s1 p q /\ page_verify s1 p).
  Proof.
    intros i os. induction os as [|o os IH] using rev_ind; intros s es H Hn.
    { cbn in H. inversion H; subst. split; [reflexivity|]. intros K. destruct K. reflexivity. }
    apply run_app in H. destruct H as (s1 & e1 & e2 & H1 & H2 & ->).
    cbn [run] in H2. apply bind_inv in H2. destruct H2 as (b & s2 & f1 & f2 & H2 & H3 & ->). unfold ret in H3.
    assert (s2 = s) as -> by congruence. assert (f2 = []) as -> by congruence. rewrite app_nil_r. clear H3.
    destruct (IH s1 e1 H1) as [Hq Ha]; [intros j v K; apply (Hn j v), in_or_app; left; exact K|].
    assert (Hold : acks_of e1 <> 0%nat -> exists os1 os2 s1 e1 p q, os ++ [o] = os1 ++ OExecute :: os2 /\ run E os1 (st0 i) = Ok (tt, s1, e1) /\
      ready s1 p q /\ page_verify s1 p).
    { intros K. destruct (Ha K) as (os1 & os2 & t & g & p & q & -> & R). exists os1, (os2 ++ [o]), t, g, p, q.
      split; [rewrite <- app_assoc; reflexivity|exact R]. }
    rewrite acks_app.
    assert (Hcb : forall j v, o <> OCallback j v) by (intros j v ->; apply (Hn j v), in_or_app; right; left; reflexivity).
    destruct (op_eq_exec o) as [->|Ho].
    - cbn [step] in H2. assert (reached E s1) as Hre by (exists i, os, e1; exact H1).
      destruct (execute_cases E s1 b s f1 Hre H2) as [(_ & -> & -> & _)|(p & q & _ & _ & _ & _ & Hr & _)].
      + split; [exact Hq|]. rewrite Nat.add_0_r. exact Hold.
      + destruct (requests E HD s1 p q b s f1 Hre Hr H2) as (g1 & g2 & Hg & _ & _ & _ & Hqq & Hack & _).
        split; [destruct Hqq as [->|K]; assumption|]. intros K.
        destruct (Nat.eq_dec (acks_of e1) 0) as [E0|E0]; [|exact (Hold E0)].
        exists os, [], s1, e1, p, q. split; [reflexivity|]. split; [exact H1|]. split; [exact Hr|].
        destruct (page_verify_dec s1 p) as [Hv|Hv]; [exact Hv|]. specialize (Hack Hv). lia.
    - destruct (other_quiet o Ho Hcb) as [K1 K2]. split; [exact (K1 _ _ _ _ H2 Hq)|].
      rewrite (acks_none f1) by exact (K2 _ _ _ _ H2). rewrite Nat.add_0_r. exact Hold.
  Qed.
End Silent.
