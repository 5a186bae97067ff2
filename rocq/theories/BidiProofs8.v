(** BiDi: pauses and tip-off search *)
From Verif Require Import Prelude Address Instruction Datagram Packets Backoff RxState Rx ZBits RxLogic RxInv SpecCodec CodecProofs CodecProofs2
  SpecRx RxBitProofs SpecExec ExecProofs SpecConf SpecCv CvProofs SaneProofs SpecLogon LogonProofs LogonProofs2 LogonProofs3 LogonProofs4 SpecBidi BidiProofs BidiProofs2 BidiProofs3 BidiProofs4.

(** ** Pauses *)
Lemma possible_pausing : forall b, possible b -> pausing b.
Proof.
  induction 1 as [|b r _ IH|b _ _]; [unfold pausing; cbn; lia|apply backoff_pausing; exact IH|apply now_pausing].
Qed.
Lemma attempts_wait : forall n k rs, (n <= length rs)%nat ->
  attempts (Mk_backoff k (Z.of_nat n)) rs = repeat true n ++ attempts (Mk_backoff k 0) (skipn n rs).
Proof.
  induction n as [|n IH]; intros k rs H; [reflexivity|]. destruct rs as [|r rs]; [cbn [length] in H; lia|]. cbn [length] in H.
  cbn [attempts]. unfold backoff_test. cbn [bo_count bo_range]. destruct (Z.eqb_spec (Z.of_nat (S n)) 0) as [C|_]; [lia|].
  replace (Z.of_nat (S n) - 1) with (Z.of_nat n) by lia. rewrite IH by lia. reflexivity.
Qed.
Lemma window_size : forall k, 0 <= k <= 3 -> Z.shiftl 8 k = 2 ^ (3 + k) /\ 0 < 2 ^ (3 + k) <= 64.
Proof.
  intros k Hk. assert (k = 0 \/ k = 1 \/ k = 2 \/ k = 3) as [->|[->|[->| ->]]] by lia; cbn; lia.
Qed.
Lemma attempts_pass : forall b r rs, possible b -> bo_count b = 0 -> (Z.to_nat (r mod 2 ^ (3 + bo_range b)) <= length rs)%nat ->
  attempts b (r :: rs) =
  false :: repeat true (Z.to_nat (r mod 2 ^ (3 + bo_range b))) ++
  attempts (Mk_backoff (Z.min (bo_range b + 1) 3) 0) (skipn (Z.to_nat (r mod 2 ^ (3 + bo_range b))) rs).
Proof.
  intros [k c] r rs Hp Hc H. apply possible_pausing in Hp. destruct Hp as [Hk _]. cbn [bo_range bo_count] in *. subst c.
  destruct (window_size k Hk) as [W1 W2]. cbn [attempts]. unfold backoff_test. cbn [bo_count bo_range]. change (0 =? 0) with true. cbn iota.
  rewrite W1. pose proof (Z.mod_pos_bound r (2 ^ (3 + k))) as B. unfold u8. rewrite (Z.mod_small (r mod 2 ^ (3 + k))) by lia. f_equal.
  rewrite <- (Z2Nat.id (r mod 2 ^ (3 + k))) at 1 by lia. apply attempts_wait. exact H.
Qed.
Lemma attempts_some : forall b rs, possible b -> (64 <= length rs)%nat -> In false (firstn 64 (attempts b rs)).
Proof.
  intros [k c] rs Hp Hl. apply possible_pausing in Hp. destruct Hp as [Hk Hc]. cbn [bo_range bo_count] in *.
  rewrite <- (Z2Nat.id c) by lia. rewrite attempts_wait by lia.
  assert (Hs : exists r t, skipn (Z.to_nat c) rs = r :: t).
  { destruct (skipn (Z.to_nat c) rs) as [|r t] eqn:Es; [|eauto]. pose proof (skipn_length (Z.to_nat c) rs) as L. rewrite Es in L. cbn [length] in L. lia. }
  destruct Hs as (r & t & ->). rewrite firstn_app, repeat_length. apply in_or_app. right.
  replace (64 - Z.to_nat c)%nat with (S (63 - Z.to_nat c)) by lia. cbn [attempts]. unfold backoff_test. cbn [bo_count]. change (0 =? 0) with true. cbn iota.
  rewrite firstn_cons. left. reflexivity.
Qed.

Lemma attempts_now : forall b r rs, (Z.to_nat (r mod 8) <= length rs)%nat ->
  attempts (backoff_now b) (r :: rs) =
  false :: repeat true (Z.to_nat (r mod 8)) ++ attempts (Mk_backoff 1 0) (skipn (Z.to_nat (r mod 8)) rs).
Proof. intros b r rs H. exact (attempts_pass backoff0 r rs possible_0 eq_refl H). Qed.

(** ** Time *)
Section Time.
  Context {I : Type} (E : Env I) (time : I -> Z) (HC : clock E time).
  Implicit Types s : st I.

  Definition ages {A} (m : M (I := I) A) : Prop := forall s a s' es, m s = Ok (a, s', es) -> time (app s) <= time (app s').
  Lemma ages_bind : forall A B (m : M (I := I) A) (k : A -> M B), ages m -> (forall a, ages (k a)) -> ages (bind m k).
  Proof. intros A B m k Hm Hk s a s' es H. apply bind_inv in H. destruct H as (x & s1 & e1 & e2 & H1 & H2 & _). specialize (Hm _ _ _ _ H1). specialize (Hk _ _ _ _ _ H2). lia. Qed.
  Lemma ages_ret : forall A (a : A), ages (ret (I := I) a). Proof. intros A a s b s' es H. inversion H; subst. lia. Qed.
  Lemma ages_fail : forall A r, ages (fail (I := I) (A := A) r). Proof. intros A r s b s' es H. discriminate. Qed.
  Lemma ages_lift : forall A (m : res A), ages (lift (I := I) m). Proof. intros A [a|r] s b s' es H; inversion H; subst; lia. Qed.
  Lemma ages_get : ages (get (I := I)). Proof. intros s b s' es H. inversion H; subst. lia. Qed.
  Lemma ages_modify : forall f, ages (modify (I := I) f). Proof. intros f s b s' es H. inversion H; subst. cbn. lia. Qed.
  Lemma ages_at : forall bs i, ages (at_ (I := I) bs i). Proof. intros bs i s b s' es H. unfold at_ in H. destruct (nth_error bs i); inversion H; subst; lia. Qed.
  Ltac aged H := inversion H; subst; cbn [app]; clear H.
  Lemma ages_readCv : forall cv, ages (readCv E cv).
  Proof. intros cv s b s' es H. unfold readCv in H. destruct HC as (_ & K & _). specialize (K (app s) cv). destruct (e_readCv E (app s) cv). aged H. exact K. Qed.
  Lemma ages_readCvByte : forall cv b, ages (readCvByte E cv b).
  Proof. intros cv x s b s' es H. unfold readCvByte in H. destruct HC as (_ & _ & K & _). specialize (K (app s) cv x). destruct (e_readCvByte E (app s) cv x). aged H. exact K. Qed.
  Lemma ages_readCvBit : forall cv b p, ages (readCvBit E cv b p).
  Proof. intros cv x p s b s' es H. unfold readCvBit in H. destruct HC as (_ & _ & _ & K & _). specialize (K (app s) cv x p). destruct (e_readCvBit E (app s) cv x p). aged H. exact K. Qed.
  Lemma ages_writeCv : forall cv b, ages (writeCv E cv b).
  Proof. intros cv x s b s' es H. unfold writeCv in H. destruct HC as (_ & _ & _ & _ & K & _). specialize (K (app s) cv x). destruct (e_writeCv E (app s) cv x). aged H. exact K. Qed.
  Lemma ages_writeCvBit : forall cv b p, ages (writeCvBit E cv b p).
  Proof. intros cv x p s b s' es H. unfold writeCvBit in H. destruct HC as (_ & _ & _ & _ & _ & K & _). specialize (K (app s) cv x p). destruct (e_writeCvBit E (app s) cv x p). aged H. exact K. Qed.
  Lemma ages_call : forall e, ages (call E e).
  Proof. intros e s b s' es H. destruct HC as (_ & _ & _ & _ & _ & _ & _ & K & _). aged H. apply K. Qed.
  Lemma ages_rand : ages (rand E).
  Proof. intros s b s' es H. unfold rand in H. destruct HC as (_ & _ & _ & _ & _ & _ & _ & _ & K). specialize (K (app s)). destruct (e_rand E (app s)). aged H. exact K. Qed.
  Lemma ages_now : ages (now E).
  Proof. intros s b s' es H. unfold now in H. destruct HC as (K & _). specialize (K (app s)). destruct (e_now E (app s)). aged H. cbn [fst snd] in K. lia. Qed.
  Lemma ages_call_async : forall e c, (forall v, ages (run_cb E c v)) -> ages (call_async E e c).
  Proof.
    intros e c Hc s a s' es H. unfold call_async in H. destruct HC as (_ & _ & _ & _ & _ & _ & K & _). specialize (K (app s) e).
    destruct (e_async E (app s) e) as [[v|] i]; cbn [snd] in K.
    - destruct (run_cb E c v _) as [[[u s1] e1]|r] eqn:Ec; [|discriminate]. inversion H; subst. specialize (Hc v _ _ _ _ Ec). cbn [app] in Hc. lia.
    - aged H. exact K.
  Qed.
  Ltac ages1 :=
    lazymatch goal with
    | |- ages (bind _ _) => apply ages_bind; [|intro]
    | |- ages (ret _) => apply ages_ret
    | |- ages (fail _) => apply ages_fail
    | |- ages (lift _) => apply ages_lift
    | |- ages get => apply ages_get
    | |- ages (at_ _ _) => apply ages_at
    | |- ages (readCv _ _) => apply ages_readCv
    | |- ages (readCvByte _ _ _) => apply ages_readCvByte
    | |- ages (readCvBit _ _ _ _) => apply ages_readCvBit
    | |- ages (writeCv _ _ _) => apply ages_writeCv
    | |- ages (writeCvBit _ _ _ _) => apply ages_writeCvBit
    | |- ages (call _ _) => apply ages_call
    | |- ages (rand _) => apply ages_rand
    | |- ages (now _) => apply ages_now
    | |- ages (call_async _ _ _) => apply ages_call_async; intro
    | |- ages (modify _) => apply ages_modify
    | |- ages (when ?b _) => unfold when
    | |- ages (if ?b then _ else _) => destruct b
    | |- ages (match ?x with _ => _ end) => destruct x
    | |- ages (let _ := _ in _) => cbv zeta
    | |- ages ?m => let h := head_of m in unfold h
    end.
  Ltac ages_tac := repeat ages1.
  Lemma ages_dyn_all : forall ds, ages (@dyn_all I ds).
  Proof. induction ds as [|d ds IH]; [ages_tac|]. apply ages_bind; [ages_tac|intros _; exact IH]. Qed.

  Definition times (r : rx) := (last_packet_tp (r_time r), tos_tp (r_time r)).
  Definition ordered s : Prop := wake_time s <= last_time s <= time (app s).

  Lemma tp_exact : forall s, exists s', updateTimepoints E s = Ok (tt, s', []) /\ last_time s' = fst (e_now E (app s)) /\ app s' = snd (e_now E (app s)) /\
    wake_time s' = (if 2 * second <=? fst (e_now E (app s)) - last_time s then fst (e_now E (app s)) else wake_time s) /\
    pause s' = (if 2 * second <=? fst (e_now E (app s)) - last_time s then 0 else pause s).
  Proof.
    intros s. unfold updateTimepoints, now, bind at 1. destruct (e_now E (app s)) as [v i]. cbn [fst snd].
    unfold get, bind, when, modify, ret, last_time, wake_time, pause. cbn [rxs app pending]. change (2 * second) with 2000000000.
    destruct (2000000000 <=? v - last_packet_tp (r_time (rxs s))); eexists; (split; [reflexivity|repeat split]).
  Qed.

  Lemma ordered_execute : forall s b s' es, ordered s -> execute E s = Ok (b, s', es) -> ordered s'.
  Proof.
    intros s b s' es (O1 & O2) H. unfold execute in H. rewrite bind_get in H.
    destruct (f_packet_end (r_fsm (rxs s)) || (length (r_deque (rxs s)) =? 0)%nat); [inversion H; subst; split; assumption|].
    apply bind_inv in H. destruct H as (u1 & t1 & f1 & f2 & H1 & H & _).
    apply bind_inv in H. destruct H as (u2 & t2 & f3 & f4 & H2 & H & _).
    apply bind_inv in H. destruct H as (u3 & t3 & f5 & f6 & H3 & H & _).
    apply bind_inv in H. destruct H as (u4 & t4 & f7 & f8 & H4 & H & _).
    assert (K1 : keeps times (@adr I)) by keeps_tac. assert (K2 : keeps times (logonStore E)) by keeps_tac. assert (K3 : keeps times (@updateQos I)) by keeps_tac.
    assert (A1 : ages (@adr I)) by ages_tac. assert (A2 : ages (logonStore E)) by ages_tac. assert (A3 : ages (@updateQos I)) by ages_tac.
    match type of H with ?m _ = _ => assert (A4 : ages m) by ages_tac; assert (K4 : keeps times m) by keeps_tac end.
    apply A4 in H as H'. apply K4 in H. apply A1 in H1 as H1'. apply K1 in H1. apply A2 in H2 as H2'. apply K2 in H2. apply A3 in H3 as H3'. apply K3 in H3.
    destruct (tp_exact t3) as (x & T1 & T2 & T3 & T4 & _). rewrite T1 in H4. assert (x = t4) as -> by congruence. clear H4 T1.
    destruct HC as (HN & _). specialize (HN (app t3)). unfold times in *. unfold ordered, last_time, wake_time in *.
    assert (last_packet_tp (r_time (rxs t3)) = last_packet_tp (r_time (rxs s))) by congruence.
    assert (tos_tp (r_time (rxs t3)) = tos_tp (r_time (rxs s))) by congruence.
    assert (last_packet_tp (r_time (rxs s')) = last_packet_tp (r_time (rxs t4))) as -> by congruence.
    assert (tos_tp (r_time (rxs s')) = tos_tp (r_time (rxs t4))) as -> by congruence.
    rewrite T4, T2. rewrite T3 in H'. destruct (2 * second <=? _); lia.
  Qed.
  Lemma ordered_step : forall o s b s' es, ordered s -> step E o s = Ok (b, s', es) -> ordered s'.
  Proof.
    intros o s b s' es HO H. assert (o = OExecute \/ o <> OExecute) as [->|N] by (destruct o; auto; right; discriminate).
    { exact (ordered_execute _ _ _ _ HO H). }
    assert (K : times (rxs s') = times (rxs s) /\ time (app s) <= time (app s')).
    { destruct o; try contradiction; cbn [step] in H; try (apply bind_inv in H; destruct H as (u' & s1 & e3 & e4 & H & H2 & _); inversion H2; subst; clear H2).
      - assert (keeps times (init E)) as K by keeps_tac. assert (ages (init E)) as A by ages_tac. split; [exact (K _ _ _ _ H)|exact (A _ _ _ _ H)].
      - assert (keeps times (@enable I)) as K by keeps_tac. assert (ages (@enable I)) as A by ages_tac. split; [exact (K _ _ _ _ H)|exact (A _ _ _ _ H)].
      - assert (keeps times (@disable I)) as K by keeps_tac. assert (ages (@disable I)) as A by ages_tac. split; [exact (K _ _ _ _ H)|exact (A _ _ _ _ H)].
      - assert (keeps times (receive E time0)) as K by keeps_tac. assert (ages (receive E time0)) as A by ages_tac. split; [exact (K _ _ _ _ H)|exact (A _ _ _ _ H)].
      - assert (forall ds, keeps times (@dyn_all I ds)) as K0.
        { induction ds0 as [|d ds0 IH]; [keeps_tac|]. apply keeps_bind; [keeps_tac|intros _; exact IH]. }
        assert (keeps times (@datagram I ds)) as K.
        { unfold datagram. apply keeps_bind; [apply keeps_get|intros r]. apply keeps_bind; [keeps_tac|intros _]. apply keeps_bind; [apply keeps_get|intros r'].
          destruct (block_dyn _); [apply keeps_ret|apply K0]. }
        assert (ages (@datagram I ds)) as A.
        { unfold datagram. apply ages_bind; [apply ages_get|intros r]. apply ages_bind; [ages_tac|intros _]. apply ages_bind; [apply ages_get|intros r'].
          destruct (block_dyn _); [apply ages_ret|apply ages_dyn_all]. }
        split; [exact (K _ _ _ _ H)|exact (A _ _ _ _ H)].
      - assert (keeps times (biDiChannel1 E)) as K by keeps_tac. assert (ages (biDiChannel1 E)) as A by ages_tac. split; [exact (K _ _ _ _ H)|exact (A _ _ _ _ H)].
      - assert (keeps times (biDiChannel2 E)) as K by keeps_tac. assert (ages (biDiChannel2 E)) as A by ages_tac. split; [exact (K _ _ _ _ H)|exact (A _ _ _ _ H)].
      - destruct (nth_error (pending s) i) as [c|]; [|inversion H; subst; split; [reflexivity|lia]].
        assert (keeps times (bind (run_cb E c v) (fun _ => ret false))) as K by keeps_tac. assert (ages (bind (run_cb E c v) (fun _ => ret false))) as A by ages_tac.
        split; [exact (K _ _ _ _ H)|exact (A _ _ _ _ H)]. }
    destruct K as [K A]. unfold times in K. injection K as K1 K2. unfold ordered, last_time, wake_time in *. rewrite K1, K2. lia.
  Qed.
  Lemma ordered_run : forall i os s es, 0 <= time i -> run E os (st0 i) = Ok (tt, s, es) -> ordered s.
  Proof.
    intros i os. induction os as [|o os IH] using rev_ind; intros s es Hi H.
    - inversion H; subst. unfold ordered, wake_time, last_time. cbn. lia.
    - apply (run_snoc E) in H. destruct H as (s1 & e1 & b & e2 & H & H2). exact (ordered_step _ _ _ _ _ (IH _ _ Hi H) H2).
  Qed.

  (** ** Search *)
  Lemma test_pause : forall s, pausing (tos_backoff (r_time (rxs s))) -> exists s', test_backoff E (fun r => tos_backoff (r_time r)) set_tos_backoff s = Ok (negb (pause s =? 0), s', []) /\
    search_waiting s' = search_waiting s /\ times (rxs s') = times (rxs s) /\ r_addrs (rxs s') = r_addrs (rxs s) /\ time (app s) <= time (app s') /\
    (if pause s =? 0 then 0 <= pause s' <= 63 else pause s' = pause s - 1).
  Proof.
    intros s Hp. assert (A : ages (test_backoff E (fun r => tos_backoff (r_time r)) set_tos_backoff)) by ages_tac.
    unfold pause in *. unfold test_backoff in *. rewrite bind_get. unfold rand.
    destruct (bo_count (tos_backoff (r_time (rxs s))) =? 0) eqn:Ec.
    - unfold bind at 1. destruct (e_rand E (app s)) as [v i] eqn:Er. unfold backoff_test at 1. rewrite Ec. eexists. split; [reflexivity|].
      split; [reflexivity|]. split; [reflexivity|]. split; [reflexivity|]. split.
      + destruct HC as (_ & _ & _ & _ & _ & _ & _ & _ & K). specialize (K (app s)). rewrite Er in K. exact K.
      + pose proof (backoff_pausing _ v Hp) as [_ K]. unfold backoff_test in K. rewrite Ec in K. exact K.
    - rewrite bind_ret. unfold backoff_test. rewrite Ec. eexists. split; [reflexivity|]. split; [reflexivity|]. split; [reflexivity|]. split; [reflexivity|].
      split; [cbn; lia|reflexivity].
  Qed.

  Definition seconds s : Z := (last_time s - wake_time s) / second.
  Definition found s s' : Prop :=
    if (pause s =? 0) && (length (search_waiting s) =? 0)%nat && (seconds s <? 30)
    then exists d, search_answer s (seconds s) d /\ search_waiting s' = [d]
    else search_waiting s' = search_waiting s.

  Lemma search_run : forall s, sane (rxs s) -> wake_time s <= last_time s -> exists s', tipOffSearch E s = Ok (tt, s', []) /\
    times (rxs s') = times (rxs s) /\ time (app s) <= time (app s') /\ found s s' /\ (if pause s =? 0 then 0 <= pause s' <= 63 else pause s' = pause s - 1).
  Proof.
    intros s Hs Ho. open_sane Hs. destruct (test_pause s Htb) as (s1 & R & T1 & T2 & T3 & T4 & T5). unfold tipOffSearch, found, seconds.
    unfold bind at 1. rewrite R, bind_get. fold (search_waiting s1). rewrite T1. pose proof T2 as T2'. unfold times in T2'. injection T2' as T2a T2b.
    fold (last_time s) (wake_time s) in T2a, T2b. fold (last_time s1) (wake_time s1). fold (last_time s1) in T2a. fold (wake_time s1) in T2b.
    destruct (pause s =? 0) eqn:Ep; cbn [negb orb andb].
    2: { exists s1. split; [reflexivity|]. split; [exact T2|]. auto. }
    destruct (length (search_waiting s) =? 0)%nat eqn:El; cbn [negb andb].
    2: { exists s1. split; [reflexivity|]. split; [exact T2|]. auto. }
    rewrite T2a, T2b. rewrite Z.quot_div_nonneg by lia. change 1000000000 with second.
    assert (0 <= (last_time s - wake_time s) / second) by (apply Z.div_pos; [lia|reflexivity]).
    destruct (Z.ltb_spec ((last_time s - wake_time s) / second) 30) as [L|L].
    - replace (30 <=? (last_time s - wake_time s) / second) with false by lia.
      destruct (adr_pair (rxs s1) (primary (r_addrs (rxs s1)))) as (hi & lo & A1 & A2 & A3); [rewrite T3; exact Hpr|].
      rewrite A1, A2, !ExecProofs.bind_lift. destruct (id_carries B12 14 ((last_time s - wake_time s) / second)) as (tm & C1 & C2); [lia|cbn; lia|].
      unfold u32. rewrite Z.mod_small by lia. rewrite C1, ExecProofs.bind_lift. eexists. split; [reflexivity|].
      split; [exact T2|]. split; [exact T4|]. split.
      + exists (hi ++ lo ++ tm). split.
        * exists hi, lo, tm. rewrite T3 in A3. split; [exact A3|]. split; [|reflexivity].
          change (datagram_size B12) with 2%nat in C2. change (2 ^ id_bits B12) with 256 in C2. rewrite Z.mul_comm. exact C2.
        * apply Nat.eqb_eq, length_zero_iff_nil in El. unfold search_waiting in *. cbn. rewrite El. reflexivity.
      + exact T5.
    - replace (30 <=? (last_time s - wake_time s) / second) with true by lia. exists s1. split; [reflexivity|]. split; [exact T2|]. auto.
  Qed.

  Lemma housekeeping_time : forall s s1 e1, ordered s -> housekeeping E s = Ok (tt, s1, e1) ->
    exists t, time (app s) <= t <= time (app s1) /\ last_time s1 = t /\ wake_time s1 = (if woken s t then t else wake_time s) /\
    pause s1 = (if woken s t then 0 else pause s).
  Proof.
    intros s s4 e1 (O1 & O2) H. unfold housekeeping in H.
    apply bind_inv in H. destruct H as (u1 & t1 & f1 & f2 & H1 & H & _).
    apply bind_inv in H. destruct H as (u2 & t2 & f3 & f4 & H2 & H & _).
    apply bind_inv in H. destruct H as (u3 & t3 & f5 & f6 & H3 & H & _).
    assert (K1 : keeps r_time (@adr I)) by keeps_tac. assert (K2 : keeps r_time (logonStore E)) by keeps_tac. assert (K3 : keeps r_time (@updateQos I)) by keeps_tac.
    assert (A1 : ages (@adr I)) by ages_tac. assert (A2 : ages (logonStore E)) by ages_tac. assert (A3 : ages (@updateQos I)) by ages_tac.
    apply A1 in H1 as H1'. apply K1 in H1. apply A2 in H2 as H2'. apply K2 in H2. apply A3 in H3 as H3'. apply K3 in H3.
    destruct (tp_exact t3) as (x & T1 & T2 & T3 & T4 & T5). rewrite T1 in H. assert (x = s4) as -> by congruence. clear H T1.
    destruct HC as (HN & _). specialize (HN (app t3)). exists (fst (e_now E (app t3))).
    assert (R : r_time (rxs t3) = r_time (rxs s)) by congruence. unfold woken, last_time, wake_time, pause in *. rewrite R in *.
    split; [rewrite T3; lia|]. auto.
  Qed.

  Lemma search_body : forall n bs, Forall byte bs -> (exists t, bs = 0xDD :: 2 :: t \/ bs = 0xC0 :: 2 :: 0 :: t) ->
    forall s, dispatch E n bs s = tipOffSearch E s.
  Proof.
    intros n bs Hb [t [->| ->]] s; unfold dispatch; (rewrite decode_instruction_spec by (inversion Hb; assumption)); rewrite ExecProofs.bind_lift.
    - change (nibble_class (0xDD / 16)) with IFeatureExpansion. unfold featureExpansion, at_. cbn [nth_error]. rewrite bind_ret. cbn [Z.eqb Pos.eqb]. rewrite !bind_ret. reflexivity.
    - change (nibble_class (0xC0 / 16)) with IFeatureExpansion. unfold featureExpansion, at_. cbn [nth_error]. rewrite bind_ret. cbn [Z.eqb Pos.eqb]. rewrite !bind_ret. reflexivity.
  Qed.
  Lemma quiet_body : forall n bs, Forall byte bs -> ~ (exists t, bs = 0xDD :: 2 :: t \/ bs = 0xC0 :: 2 :: 0 :: t) ->
    keeps (fun r => tos_deque (r_bidi r)) (dispatch E n bs).
  Proof.
    intros n bs Hb Hn. unfold dispatch. apply keeps_bind; [apply keeps_lift|intros i].
    destruct i; try solve [keeps_tac].
    assert (KB : forall x b, ~ (x = 2 /\ b = false) -> keeps (fun r => tos_deque (r_bidi r)) (binaryState E x b)).
    { intros x b N. unfold binaryState. destruct (Z.eqb_spec x 2) as [->|_]; [|apply keeps_ret]. destruct b; [apply keeps_ret|]. exfalso. apply N. auto. }
    destruct bs as [|b0 bs]; [intros s a s' es H; discriminate H|].
    intros s a s' es H. cbn [featureExpansion at_ nth_error] in H. unfold featureExpansion in H. cbn [at_ nth_error] in H. rewrite bind_ret in H.
    destruct (Z.eqb_spec b0 0xC0) as [->|_].
    { destruct bs as [|b1 [|b2 bs]]; try discriminate H. cbn [at_ nth_error] in H. rewrite !bind_ret in H.
      refine (KB _ _ _ _ _ _ _ H). intros [X1 X2]. apply Hn. inversion Hb as [|? ? _ Hb']. inversion Hb' as [|? ? B1 Hb2]. inversion Hb2 as [|? ? B2 _]. subst.
      exists bs. right. f_equal. assert (b1 < 128).
      { destruct (Z_lt_le_dec b1 128) as [L|L]; [exact L|]. exfalso. assert (K : Z.testbit b1 7 = true) by (rewrite Z.testbit_true by lia; unfold byte in B1; change (2 ^ 7) with 128; replace (b1 / 128) with 1 by lia; reflexivity). congruence. }
      change 0x7F with (Z.ones 7) in X1. rewrite Z.land_ones in X1 by lia. change (2 ^ 7) with 128 in X1. rewrite Z.mod_small in X1 by (unfold byte in B1; lia).
      unfold byte in *. rewrite lor_shiftl in X1 by lia. change (2 ^ 7) with 128 in X1. assert (b1 = 2 /\ b2 = 0) as [-> ->] by lia. reflexivity. }
    destruct (Z.eqb_spec b0 0xDD) as [->|_].
    { destruct bs as [|b1 bs]; try discriminate H. cbn [at_ nth_error] in H. rewrite !bind_ret in H.
      refine (KB _ _ _ _ _ _ _ H). intros [X1 X2]. apply Hn. inversion Hb as [|? ? _ Hb']. inversion Hb' as [|? ? B1 Hb2]. subst.
      exists bs. left. f_equal. assert (b1 < 128).
      { destruct (Z_lt_le_dec b1 128) as [L|L]; [exact L|]. exfalso. assert (K : Z.testbit b1 7 = true) by (rewrite Z.testbit_true by lia; unfold byte in B1; change (2 ^ 7) with 128; replace (b1 / 128) with 1 by lia; reflexivity). congruence. }
      change 0x7F with (Z.ones 7) in X1. rewrite Z.land_ones in X1 by lia. change (2 ^ 7) with 128 in X1. rewrite Z.mod_small in X1 by (unfold byte in B1; lia). rewrite X1. reflexivity. }
    match type of H with ?m _ = _ => assert (keeps (fun r => tos_deque (r_bidi r)) m) as K by keeps_tac; exact (K _ _ _ _ H) end.
  Qed.

  Lemma search_execute : forall s p q n, sane (rxs s) -> ordered s -> ready s p q -> Forall byte p -> (3 <= length p)%nat -> in_service s = false ->
    for_locos p -> acts_as (r_addrs (rxs s)) p n -> asks_search p ->
    exists t s' es, execute E s = Ok (true, s', es) /\ time (app s) <= t <= time (app s') /\ searched s t s' /\ storing s es.
  Proof.
    intros s p q n Hs Ho Hr Hb Hl Hm Hf Ha Hq. destruct (execute_housekeeping E s p q Hr) as (s1 & e1 & Hh & Hk & _ & Hst & He).
    destruct (housekeeping_time _ _ _ Ho Hh) as (t & T1 & T2 & T3 & T4).
    assert (H2 : r_addrs (rxs s1) = r_addrs (rxs s)) by (unfold hk in Hk; congruence).
    assert (H3 : r_deque (rxs s1) = p :: q) by (unfold hk in Hk; destruct Hr; congruence).
    assert (H4 : in_service s1 = false) by (unfold in_service, hk in *; congruence).
    assert (H5 : search_waiting s1 = search_waiting s) by (unfold search_waiting, hk in *; congruence).
    assert (Hs1 : sane (rxs s1)).
    { assert (holds sane (housekeeping E)) as K; [|exact (K _ _ _ _ Hh Hs)]. unfold housekeeping. apply holds_bind; [apply sane_adr|intro]. apply holds_bind; [apply sane_logonStore|intro]. apply holds_bind; [apply sane_updateQos|intro]. apply sane_updateTimepoints. }
    destruct (command_operations E s1 p q H4 H3 Hb Hl) as [(_ & m & _ & Hc)|(Hc & _)]; [|exfalso; apply Hc; split; [exact Hf|exists n; rewrite H2; exact Ha]].
    assert (Ho1 : wake_time s1 <= last_time s1). { rewrite T2, T3. destruct Ho. destruct (woken s t); lia. }
    destruct (search_run s1 Hs1 Ho1) as (s2 & R1 & R2 & R3 & R4 & R5).
    rewrite Hc in He. unfold bind in He. rewrite (search_body m _ (body_bytes _ Hb) Hq), R1 in He. cbn in He. rewrite app_nil_r in He.
    exists t, (pop q s2), e1. split; [exact He|]. split; [cbn [pop app]; lia|]. split; [|exact Hst].
    unfold times in R2. injection R2 as R2a R2b. unfold searched. cbv zeta. change (pause (pop q s2)) with (pause s2).
    change (search_waiting (pop q s2)) with (search_waiting s2).
    assert (W : wake_time (pop q s2) = wake_time s1) by exact R2b. rewrite W, T3. rewrite <- T4.
    split; [transitivity (last_time s1); [exact R2a|exact T2]|]. split; [reflexivity|].
    split; [intros X; rewrite X in R5; exact R5|]. split; [intros X; replace (pause s1 =? 0) with false in R5 by lia; exact R5|].
    unfold found, seconds in R4. rewrite T2, T3, H5 in R4.
    assert (SA : forall sec d, search_answer s1 sec d -> search_answer s sec d) by (intros sec d; unfold search_answer; rewrite H2; auto).
    split.
    - intros (X1 & X2 & X3). rewrite X1, X2 in R4. replace (_ <? 30) with true in R4 by lia. destruct R4 as (d & R4 & R4'). exists d. split; [apply SA; exact R4|exact R4'].
    - intros N. destruct ((pause s1 =? 0) && (length (search_waiting s) =? 0)%nat && ((t - (if woken s t then t else wake_time s)) / second <? 30)) eqn:Eb; [|exact R4].
      exfalso. apply N. apply andb_true_iff in Eb. destruct Eb as [Eb Eb3]. apply andb_true_iff in Eb. destruct Eb as [Eb1 Eb2].
      apply Nat.eqb_eq, length_zero_iff_nil in Eb2. repeat split; [lia|exact Eb2|lia].
  Qed.

  Lemma quiet_execute : forall s p q b s' es, ready s p q -> Forall byte p -> (3 <= length p)%nat ->
    ~ asks_search p \/ in_service s = true \/ ~ (for_locos p /\ exists n, acts_as (r_addrs (rxs s)) p n) ->
    execute E s = Ok (b, s', es) -> search_waiting s' = search_waiting s.
  Proof.
    intros s p q b s' es Hr Hb Hl Hn H. destruct (execute_housekeeping E s p q Hr) as (s1 & e1 & Hh & Hk & _ & Hst & He).
    assert (H2 : r_addrs (rxs s1) = r_addrs (rxs s)) by (unfold hk in Hk; congruence).
    assert (H3 : r_deque (rxs s1) = p :: q) by (unfold hk in Hk; destruct Hr; congruence).
    assert (H4 : in_service s1 = in_service s) by (unfold in_service, hk in *; congruence).
    assert (H5 : search_waiting s1 = search_waiting s) by (unfold search_waiting, hk in *; congruence).
    rewrite He in H. destruct (executeCommand E s1) as [[[b2 s2] e2]|r] eqn:Ec; [|discriminate H].
    assert (s' = pop q s2) as -> by congruence. change (search_waiting (pop q s2)) with (search_waiting s2). rewrite <- H5.
    destruct (in_service s1) eqn:Es.
    - unfold executeCommand in Ec. rewrite bind_get in Ec. unfold in_service in Es. rewrite Es in Ec.
      assert (keeps (fun r => tos_deque (r_bidi r)) (executeService E)) as K by keeps_tac. exact (K _ _ _ _ Ec).
    - destruct (command_operations E s1 p q Es H3 Hb Hl) as [(Hf & m & Ha & Hc)|(_ & Hc)]; [|rewrite Hc in Ec; assert (s2 = s1) as -> by congruence; reflexivity].
      destruct Hn as [Hn|[Hn|Hn]]; [|congruence|exfalso; apply Hn; split; [exact Hf|exists m; rewrite <- H2; exact Ha]].
      rewrite Hc in Ec. apply bind_inv in Ec. destruct Ec as (u & s3 & f1 & f2 & Ec & E2 & _). inversion E2; subst s3.
      exact (quiet_body m _ (body_bytes _ Hb) Hn _ _ _ _ Ec).
  Qed.

  Lemma other_search : forall o s u s' es, step E o s = Ok (u, s', es) -> o <> OExecute -> o <> OBiDi2 -> search_waiting s' = search_waiting s.
  Proof.
    intros o s u s' es H N1 N2. unfold search_waiting. assert (KF : forall A (m : M (I := I) A), keeps (fun r => tos_deque (r_bidi r)) m -> forall s a s' es, m s = Ok (a, s', es) -> tos_deque (r_bidi (rxs s')) = tos_deque (r_bidi (rxs s))) by (intros A m K; exact K).
    destruct o; try contradiction; cbn [step] in H.
    - refine (KF _ _ _ _ _ _ _ H). keeps_tac.
    - refine (KF _ _ _ _ _ _ _ H). keeps_tac.
    - refine (KF _ _ _ _ _ _ _ H). keeps_tac.
    - refine (KF _ _ _ _ _ _ _ H). keeps_tac.
    - assert (forall ds, keeps (fun r => tos_deque (r_bidi r)) (@dyn_all I ds)) as K0.
      { induction ds0 as [|d ds0 IH]; [keeps_tac|]. apply keeps_bind; [keeps_tac|intros _; exact IH]. }
      refine (KF _ _ _ _ _ _ _ H). apply keeps_bind; [|intros _; apply keeps_ret].
      unfold datagram. apply keeps_bind; [apply keeps_get|intros r]. apply keeps_bind; [keeps_tac|intros _]. apply keeps_bind; [apply keeps_get|intros r'].
      destruct (block_dyn _); [apply keeps_ret|apply K0].
    - refine (KF _ _ _ _ _ _ _ H). keeps_tac.
    - destruct (nth_error (pending s) i) as [c|]; [|inversion H; subst; reflexivity]. refine (KF _ _ _ _ _ _ _ H). keeps_tac.
  Qed.
End Time.
