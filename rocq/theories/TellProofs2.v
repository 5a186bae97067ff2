(** What an interrupted execution adds to channel 1. *)
From Verif Require Import Prelude Address Instruction SpecCodec Datagram RxState Rx RxLogic RxInv SpecRx SpecConf SpecLogon SpecBidi RxBitProofs RxBitProofs4 ExecProofs
  ZBits SaneProofs LogonProofs4 BidiProofs BidiProofs3 BidiProofs4 Preempt SpecPreempt PreemptProofs PreemptProofs2 PreemptProofs3 PreemptProofs4
  SpecOffer OfferProofs2 SpecTell StaleProofs TellProofs.

Section Push.
  Context {I : Type} (E : Env I).
  Hypothesis deaf : forall i d, e_hook E i (ETransmitBiDi d) = i.
  Implicit Types s : st I.

  (** [s'] has the addresses and switches of [s] *)
  Definition akin s s' : Prop := mask (rxs s') = mask (rxs s).

  Lemma next_step : forall A B m (k : B -> prog A) w l s a sn sv s' es,
    Forall (Forall handler) w -> no_logon sv l -> Rl l s ->
    preempted E (Act B m k) w s = Ok ((a, sn, sv), s', es) ->
    (forall t b t' e, m t = Ok (b, t', e) -> core (rxs t') = core (rxs t)) ->
    exists s1 l1 b s2 e2 sn' sv' es', akin s s1 /\ flow s s1 (moments E (hd [] w) s) [] /\ m s1 = Ok (b, s2, e2) /\
    Rl l1 s2 /\ no_logon sv' l1 /\ preempted E (k b) (tl w) s2 = Ok ((a, sn', sv'), s', es') /\
    meanwhile E (Act B m k) w s = moments E (hd [] w) s ++ meanwhile E (k b) (tl w) s2 /\ Forall (Forall handler) (tl w).
  Proof.
    intros A B m k w l s a sn sv s' es Hw Hn HR H Hc. apply preempted_inv in H.
    destruct H as (s1 & e1 & b & s2 & e2 & a' & sn' & sv' & e3 & H1 & H2 & H3 & Ho & _). injection Ho as -> -> ->.
    apply no_logon_app in Hn. destruct Hn as [Hn1 Hn2]. pose proof (handlers_hd _ Hw) as Hh.
    assert (N0 : near s s) by (repeat split; auto). destruct (handlers_near E deaf _ _ _ _ _ _ Hh Hn1 HR N0 H1) as [(N1 & _) _].
    exists s1, (listen_all (hd [] w) l), b, s2, e2, sn', sv', e3. split; [exact N1|].
    split; [exact (flow_run E _ _ _ _ (handler_orderly _ Hh) H1)|]. split; [exact H2|].
    split; [exact (Rl_core _ _ _ (Hc _ _ _ _ H2) (run_refines E _ _ _ _ _ HR H1))|]. split; [exact Hn2|]. split; [exact H3|].
    split; [cbn [meanwhile]; rewrite H1, H2; reflexivity|exact (handlers_tl _ Hw)].
  Qed.

  (** A read *)
  Lemma next_rd : forall A X (f : rx -> X) (k : X -> prog A) w l s a sn sv s' es,
    Forall (Forall handler) w -> no_logon sv l -> Rl l s ->
    preempted E (pbind (rd f) k) w s = Ok ((a, sn, sv), s', es) ->
    exists s1 l1 m1 sn' sv' es', akin s s1 /\ flow s s1 m1 [] /\ Rl l1 s1 /\ no_logon sv' l1 /\
    preempted E (k (f (rxs s1))) (tl w) s1 = Ok ((a, sn', sv'), s', es') /\
    meanwhile E (pbind (rd f) k) w s = m1 ++ meanwhile E (k (f (rxs s1))) (tl w) s1 /\ Forall (Forall handler) (tl w).
  Proof.
    intros A X f k w l s a sn sv s' es Hw Hn HR H. unfold rd, act in H. cbn [pbind] in H.
    destruct (next_step _ _ _ _ _ _ _ _ _ _ _ _ Hw Hn HR H) as (s1 & l1 & b & s2 & e2 & sn' & sv' & es' & K1 & K2 & K3 & K4 & K5 & K6 & K7 & K8).
    { intros t b t' e X1. inversion X1; reflexivity. }
    inversion K3; subst. exists s2, l1, (moments E (hd [] w) s), sn', sv', es'. repeat (split; [assumption|]). assumption.
  Qed.
  Lemma next_push : forall A d (k : unit -> prog A) w l s a sn sv s' es,
    Forall (Forall handler) w -> no_logon sv l -> Rl l s ->
    preempted E (pbind (wr (fun r => set_adr_deque (adr_deque (r_bidi r) ++ [d]) r)) k) w s = Ok ((a, sn, sv), s', es) ->
    exists s1 l1 m1 sn' sv' es', akin s s1 /\ flow s s1 m1 [d] /\ Rl l1 s1 /\ no_logon sv' l1 /\
    preempted E (k tt) (tl w) s1 = Ok ((a, sn', sv'), s', es') /\
    meanwhile E (pbind (wr (fun r => set_adr_deque (adr_deque (r_bidi r) ++ [d]) r)) k) w s = m1 ++ meanwhile E (k tt) (tl w) s1 /\
    Forall (Forall handler) (tl w).
  Proof.
    intros A d k w l s a sn sv s' es Hw Hn HR H. unfold wr, act in H. cbn [pbind] in H.
    destruct (next_step _ _ _ _ _ _ _ _ _ _ _ _ Hw Hn HR H) as (s1 & l1 & b & s2 & e2 & sn' & sv' & es' & K1 & K2 & K3 & K4 & K5 & K6 & K7 & K8).
    { intros t b t' e X1. inversion X1; reflexivity. }
    destruct b. inversion K3; subst. eexists. exists l1, (moments E (hd [] w) s), sn', sv', es'.
    split; [|split; [|split; [exact K4|split; [exact K5|split; [exact K6|split; [exact K7|exact K8]]]]]].
    - unfold akin in *. cbn [rxs]. rewrite <- K1. reflexivity.
    - unfold flow in *. rewrite app_nil_r in K2. rewrite K2. unfold addresses_waiting. cbn. rewrite <- app_assoc. reflexivity.
  Qed.

  Lemma akin_refl : forall s, akin s s. Proof. reflexivity. Qed.
  Lemma akin_trans : forall s s1 s2, akin s s1 -> akin s1 s2 -> akin s s2.
  Proof. unfold akin. intros; congruence. Qed.
  Lemma akin_addrs : forall s s', akin s s' -> primary (r_addrs (rxs s')) = primary (r_addrs (rxs s)) /\
    consist (r_addrs (rxs s')) = consist (r_addrs (rxs s)) /\ logon (r_addrs (rxs s')) = logon (r_addrs (rxs s)) /\
    r_conf (rxs s') = r_conf (rxs s).
  Proof. unfold akin, mask. intros s s' H. injection H; intros; auto. Qed.
  Lemma adr_same : forall r r' a, consist (r_addrs r') = consist (r_addrs r) -> adrHigh r' a = adrHigh r a /\ adrLow r' a = adrLow r a.
  Proof. intros r r' a H. unfold adrHigh, adrLow. rewrite H. auto. Qed.

  (** The two datagrams for the address picked by [g] *)
  Lemma push_pair : forall g s0 w l s a sn sv s' es,
    (forall s s', akin s s' -> g (r_addrs (rxs s')) = g (r_addrs (rxs s))) ->
    0 <= aval (g (r_addrs (rxs s0))) < 16384 -> akin s0 s ->
    Forall (Forall handler) w -> no_logon sv l -> Rl l s ->
    preempted E (adrPushP g) w s = Ok ((a, sn, sv), s', es) ->
    exists hi lo, address_pair (r_addrs (rxs s0)) (g (r_addrs (rxs s0))) hi lo /\ flow s s' (meanwhile E (adrPushP g) w s) [hi; lo].
  Proof.
    intros g s0 w l s a sn sv s' es Hg Ha K Hw Hn HR H.
    destruct (adr_pair (rxs s0) _ Ha) as (hi & lo & Eh & El & Hp). exists hi, lo. split; [exact Hp|].
    unfold adrPushP in *. 
    destruct (next_rd _ _ _ _ _ _ _ _ _ _ _ _ Hw Hn HR H) as (s1 & l1 & m1 & sn1 & sv1 & es1 & A1 & F1 & R1 & N1 & P1 & M1 & W1).
    rewrite M1. clear M1 H. pose proof (akin_trans _ _ _ K A1) as K1.
    assert (Eh1 : adrHigh (rxs s1) (g (r_addrs (rxs s1))) = Ok hi).
    { rewrite (Hg _ _ K1). destruct (adr_same (rxs s0) (rxs s1) (g (r_addrs (rxs s0)))) as [-> _]; [apply akin_addrs; exact K1|exact Eh]. }
    rewrite Eh1 in P1 |- *. cbn [local pbind] in P1 |- *.
    destruct (next_push _ _ _ _ _ _ _ _ _ _ _ W1 N1 R1 P1) as (s2 & l2 & m2 & sn2 & sv2 & es2 & A2 & F2 & R2 & N2 & P2 & M2 & W2).
    rewrite M2. clear M2 P1. pose proof (akin_trans _ _ _ K1 A2) as K2.
    destruct (next_rd _ _ _ _ _ _ _ _ _ _ _ _ W2 N2 R2 P2) as (s3 & l3 & m3 & sn3 & sv3 & es3 & A3 & F3 & R3 & N3 & P3 & M3 & W3).
    rewrite M3. clear M3 P2. pose proof (akin_trans _ _ _ K2 A3) as K3.
    assert (El3 : adrLow (rxs s3) (g (r_addrs (rxs s3))) = Ok lo).
    { rewrite (Hg _ _ K3). destruct (adr_same (rxs s0) (rxs s3) (g (r_addrs (rxs s0)))) as [_ ->]; [apply akin_addrs; exact K3|exact El]. }
    rewrite El3 in P3 |- *. cbn [local pbind] in P3 |- *.
    assert (Q : forall (P : prog unit) v x, preempted E (pbind P Done) v x = preempted E P v x /\ meanwhile E (pbind P Done) v x = meanwhile E P v x).
    { clear. intros P. induction P as [b|B m k IH]; intros v x; [split; reflexivity|]. cbn [pbind preempted meanwhile]. split.
      - unfold bind, get. destruct (run E (hd [] v) x) as [[[? t] ?]|]; [|reflexivity]. unfold get.
        destruct (m t) as [[[b t2] ?]|]; [|reflexivity]. destruct (IH b (tl v) t2) as [-> _]. reflexivity.
      - destruct (run E (hd [] v) x) as [[[? t] ?]|]; [|reflexivity]. destruct (m t) as [[[b t2] ?]|]; [|reflexivity].
        destruct (IH b (tl v) t2) as [_ ->]. reflexivity. }
    destruct (Q (wr (fun r => set_adr_deque (adr_deque (r_bidi r) ++ [lo]) r)) (tl (tl (tl w))) s3) as [Q1 Q2].
    rewrite <- Q1 in P3. rewrite <- Q2.
    destruct (next_push _ _ _ _ _ _ _ _ _ _ _ W3 N3 R3 P3) as (s4 & l4 & m4 & sn4 & sv4 & es4 & A4 & F4 & R4 & N4 & P4 & M4 & W4).
    rewrite M4. cbn [meanwhile]. inversion P4; subst. rewrite app_nil_r.
    change [hi; lo] with ([] ++ [hi] ++ [] ++ [lo]).
    apply flow_trans with s1; [exact F1|]. apply flow_trans with s2; [exact F2|]. apply flow_trans with s3; [exact F3|exact F4].
  Qed.

  (** Empty stays empty *)
  Lemma flow_empty : forall s s' ms, flow s s' ms [] -> addresses_waiting s = [] -> addresses_waiting s' = [].
  Proof. unfold flow. intros s s' ms H E0. rewrite E0 in H. destruct (spoken1 ms); [symmetry; exact H|discriminate]. Qed.
  Lemma flow_short : forall s s' ms new, flow s s' ms new -> (length (addresses_waiting s') <= length (addresses_waiting s) + length new)%nat.
  Proof. unfold flow. intros s s' ms new H. apply (f_equal (@length _)) in H. rewrite !app_length in H. lia. Qed.

  (** [s0] is the state found by the execution *)
  Definition adds s0 (new : list (list Z)) : Prop := new = [] \/ exists a hi lo, channel1_on s0 = true /\
    active (r_addrs (rxs s0)) = Some a /\ address_pair (r_addrs (rxs s0)) a hi lo /\ new = [hi; lo].
  Lemma adr_flow : forall s0 w l s a sn sv s' es, sane (rxs s0) -> akin s0 s ->
    Forall (Forall handler) w -> no_logon sv l -> Rl l s ->
    preempted E adrP w s = Ok ((a, sn, sv), s', es) ->
    exists new, flow s s' (meanwhile E adrP w s) new /\ adds s0 new /\
      (addresses_waiting s = [] -> channel1_on s0 = true -> active (r_addrs (rxs s0)) <> None -> new <> []) /\
      ((length (addresses_waiting s) <= 2)%nat -> (length (addresses_waiting s') <= 2)%nat).
  Proof.
    intros s0 w l s a sn sv s' es Hs K Hw Hn HR H. open_sane Hs. unfold adrP in *.
    destruct (next_rd _ _ _ _ _ _ _ _ _ _ _ _ Hw Hn HR H) as (s1 & l1 & m1 & sn1 & sv1 & es1 & A1 & F1 & R1 & N1 & P1 & M1 & W1).
    rewrite M1. clear M1 H. pose proof (akin_trans _ _ _ K A1) as K1.
    assert (Ec : ch1_addr_enabled (r_conf (rxs s1)) = channel1_on s0) by (unfold channel1_on; destruct (akin_addrs _ _ K1) as (_ & _ & _ & ->); reflexivity).
    rewrite Ec in P1 |- *. destruct (channel1_on s0) eqn:Eon; cbn [negb] in P1 |- *.
    2: { cbn [pbind meanwhile] in P1 |- *. inversion P1; subst. rewrite app_nil_r. exists []. split; [exact F1|]. split; [left; reflexivity|].
         split; [discriminate|]. pose proof (flow_short _ _ _ _ F1). cbn [length] in *. lia. }
    destruct (next_rd _ _ _ _ _ _ _ _ _ _ _ _ W1 N1 R1 P1) as (s2 & l2 & m2 & sn2 & sv2 & es2 & A2 & F2 & R2 & N2 & P2 & M2 & W2).
    rewrite M2. clear M2 P1. pose proof (akin_trans _ _ _ K1 A2) as K2. rewrite app_assoc.
    assert (F12 : flow s s2 (m1 ++ m2) []) by (change (@nil (list Z)) with (@nil (list Z) ++ []); apply flow_trans with s1; assumption).
    destruct (length (adr_deque (r_bidi (rxs s2))) =? 0)%nat eqn:El; cbn [negb] in P2 |- *.
    2: { cbn [meanwhile] in P2 |- *. inversion P2; subst. rewrite app_nil_r. exists []. split; [exact F12|]. split; [left; reflexivity|].
         split; [|pose proof (flow_short _ _ _ _ F12); cbn [length] in *; lia].
         intros X. exfalso. apply (flow_empty _ _ _ F12) in X. unfold addresses_waiting in X. rewrite X in El. discriminate. }
    apply Nat.eqb_eq, length_zero_iff_nil in El. change (addresses_waiting s2 = []) in El.
    destruct (next_rd _ _ _ _ _ _ _ _ _ _ _ _ W2 N2 R2 P2) as (s3 & l3 & m3 & sn3 & sv3 & es3 & A3 & F3 & R3 & N3 & P3 & M3 & W3).
    rewrite M3. clear M3 P2. pose proof (akin_trans _ _ _ K2 A3) as K3. rewrite app_assoc.
    assert (F13 : flow s s3 ((m1 ++ m2) ++ m3) []) by (change (@nil (list Z)) with (@nil (list Z) ++ []); apply flow_trans with s2; assumption).
    pose proof (flow_empty _ _ _ F3 El) as El3.
    assert (PUSH : forall g v lv x av snv svv esv mv, (forall s s', akin s s' -> g (r_addrs (rxs s')) = g (r_addrs (rxs s))) ->
      0 <= aval (g (r_addrs (rxs s0))) < 16384 -> akin s0 x -> Forall (Forall handler) v -> no_logon svv lv -> Rl lv x ->
      active (r_addrs (rxs s0)) = Some (g (r_addrs (rxs s0))) -> flow s x mv [] -> addresses_waiting x = [] ->
      preempted E (adrPushP g) v x = Ok ((av, snv, svv), s', esv) ->
      exists new, flow s s' (mv ++ meanwhile E (adrPushP g) v x) new /\ adds s0 new /\
      (addresses_waiting s = [] -> true = true -> active (r_addrs (rxs s0)) <> None -> new <> []) /\
      ((length (addresses_waiting s) <= 2)%nat -> (length (addresses_waiting s') <= 2)%nat)).
    { intros g v lv x av snv svv esv mv Gg Gr Gk Gv Gn GR Ga Gf Ge GP.
      destruct (push_pair g s0 _ _ _ _ _ _ _ _ Gg Gr Gk Gv Gn GR GP) as (hi & lo & Hp & Hf). exists [hi; lo].
      split; [change [hi; lo] with ([] ++ [hi; lo]); apply flow_trans with x; assumption|].
      split; [right; exists (g (r_addrs (rxs s0))), hi, lo; auto|]. split; [discriminate|].
      pose proof (flow_short _ _ _ _ Hf) as X. rewrite Ge in X. cbn [length] in X. lia. }
    assert (El1 : aval (logon (r_addrs (rxs s3))) = aval (logon (r_addrs (rxs s0)))) by (destruct (akin_addrs _ _ K3) as (_ & _ & -> & _); reflexivity).
    rewrite El1 in P3 |- *. destruct (aval (logon (r_addrs (rxs s0))) =? 0) eqn:E1; cbn [negb] in P3 |- *.
    2: { apply (PUSH logon _ l3 _ _ _ _ _ _) with (10 := P3); auto; [intros x y X; apply akin_addrs in X; apply X|].
         unfold active. rewrite E1. reflexivity. }
    destruct (next_rd _ _ _ _ _ _ _ _ _ _ _ _ W3 N3 R3 P3) as (s4 & l4 & m4 & sn4 & sv4 & es4 & A4 & F4 & R4 & N4 & P4 & M4 & W4).
    rewrite M4. clear M4 P3. pose proof (akin_trans _ _ _ K3 A4) as K4. rewrite app_assoc.
    assert (F14 : flow s s4 (((m1 ++ m2) ++ m3) ++ m4) []) by (change (@nil (list Z)) with (@nil (list Z) ++ []); apply flow_trans with s3; assumption).
    pose proof (flow_empty _ _ _ F4 El3) as El4.
    assert (Ec4 : aval (consist (r_addrs (rxs s4))) = aval (consist (r_addrs (rxs s0)))) by (destruct (akin_addrs _ _ K4) as (_ & -> & _); reflexivity).
    rewrite Ec4 in P4 |- *. destruct (aval (consist (r_addrs (rxs s0))) =? 0) eqn:E2.
    { apply (PUSH primary _ l4 _ _ _ _ _ _) with (10 := P4); auto; [intros x y X; apply akin_addrs in X; apply X|].
      unfold active. rewrite E1, E2. reflexivity. }
    destruct (next_rd _ _ _ _ _ _ _ _ _ _ _ _ W4 N4 R4 P4) as (s5 & l5 & m5 & sn5 & sv5 & es5 & A5 & F5 & R5 & N5 & P5 & M5 & W5).
    rewrite M5. clear M5 P4. pose proof (akin_trans _ _ _ K4 A5) as K5. rewrite app_assoc.
    assert (F15 : flow s s5 ((((m1 ++ m2) ++ m3) ++ m4) ++ m5) []) by (change (@nil (list Z)) with (@nil (list Z) ++ []); apply flow_trans with s4; assumption).
    pose proof (flow_empty _ _ _ F5 El4) as El5.
    assert (Ec5 : aval (consist (r_addrs (rxs s5))) = aval (consist (r_addrs (rxs s0)))) by (destruct (akin_addrs _ _ K5) as (_ & -> & _); reflexivity).
    rewrite Ec5 in P5 |- *. replace (0 <? aval (consist (r_addrs (rxs s0)))) with true in P5 |- * by lia. cbn [andb] in P5 |- *.
    destruct (aval (consist (r_addrs (rxs s0))) <? 128) eqn:E3.
    { apply (PUSH consist _ l5 _ _ _ _ _ _) with (10 := P5); auto; [intros x y X; apply akin_addrs in X; apply X|].
      unfold active. rewrite E1, E2, E3. reflexivity. }
    cbn [meanwhile] in P5 |- *. inversion P5; subst. rewrite app_nil_r. exists []. split; [exact F15|]. split; [left; reflexivity|].
    split; [|pose proof (flow_short _ _ _ _ F15); cbn [length] in *; lia].
    intros _ _ X. exfalso. apply X. unfold active. rewrite E1, E2, E3. reflexivity.
  Qed.
End Push.
