(** Logon in the interpreter of SpecNode.v *)
From Verif Require Import Prelude Address SpecCodec RxState Rx RxLogic SpecRx SpecExec SpecConf SpecCv LogonProofs SpecLogon SpecLayout LayoutProofs SpecNode NodeProofs NodeProofs6.

Section Logon.
  Variable ew : bool.

  (** Fields that executing packets does not change *)
  Definition logon_of n := (n_logon n, n_selected n, n_assigned n).

  Lemma carry_logon : forall x n, logon_of (fst (carry x n)) = logon_of n /\ n_store (fst (carry x n)) = n_store n.
  Proof. intros x n. unfold carry. destruct (permitted _ x); [|auto]. cbn [fst]. destruct (configuring x); split; reflexivity. Qed.
  Lemma carry_all_logon : forall xs n, logon_of (fst (carry_all xs n)) = logon_of n /\ n_store (fst (carry_all xs n)) = n_store n.
  Proof.
    induction xs as [|x xs IH]; intros n; cbn [carry_all]; [split; reflexivity|].
    pose proof (carry_logon x n) as [A B]. destruct (carry x n) as [n1 a]. pose proof (IH n1) as [C D]. destruct (carry_all xs n1) as [n2 b].
    cbn [fst] in *. split; congruence.
  Qed.
  Lemma carry_service : forall x n, v_service (n_view (fst (carry x n))) = v_service (n_view n).
  Proof. intros x n. unfold carry. destruct (permitted _ x); [|auto]. cbn [fst]. destruct (configuring x); reflexivity. Qed.
  Lemma carry_all_service : forall xs n, v_service (n_view (fst (carry_all xs n))) = v_service (n_view n).
  Proof.
    induction xs as [|x xs IH]; intros n; cbn [carry_all]; [reflexivity|].
    pose proof (carry_service x n) as A. destruct (carry x n) as [n1 a]. pose proof (IH n1) as C. destruct (carry_all xs n1) as [n2 b].
    cbn [fst] in *. congruence.
  Qed.

  Lemma operate_logon : forall p n, logon_of (fst (operate ew p n)) = logon_of n /\ n_store (fst (operate ew p n)) = n_store n.
  Proof.
    intros p n. unfold operate. destruct (obeyed_as n p) as [k|]; [|auto]. destruct (body_of p) as [|b0 t]; [auto|].
    destruct (b0 <? 0x10); [destruct ((k =? 0) && (b0 =? 0)); auto|]. destruct (b0 <? 0x20); [apply carry_logon|].
    destruct (b0 <? 0xE0); [auto|]. destruct (negb (k =? 0) && (k =? aval (n_consist n))); [auto|].
    apply (carry_all_logon _ (on_view (count p) n)).
  Qed.
  Lemma operate_service : forall p n, hd 1 (body_of p) <> 0 -> v_service (n_view (fst (operate ew p n))) = v_service (n_view n).
  Proof.
    intros p n Ho. unfold operate. destruct (obeyed_as n p) as [k|]; [|auto]. destruct (body_of p) as [|b0 t]; [auto|].
    cbn [hd] in Ho. destruct (b0 <? 0x10).
    - apply Z.eqb_neq in Ho. rewrite Ho, andb_false_r. reflexivity.
    - destruct (b0 <? 0x20); [apply carry_service|]. destruct (b0 <? 0xE0); [auto|]. destruct (negb (k =? 0) && (k =? aval (n_consist n))); [auto|].
      apply (carry_all_service _ (on_view (count p) n)).
  Qed.

  Definition settled (A : address) n : Prop := logged_on A n /\ n_store n = false /\ v_service (n_view n) = false.

  Lemma settled_execution : forall A n p, settled A n -> hd 1 (body_of p) <> 0 ->
    execution ew p n = operate ew p n /\ settled A (fst (operate ew p n)).
  Proof.
    intros A n p ((L1 & L2 & L3 & L4) & Hs & Hv) Ho. split.
    - unfold execution, store_all. rewrite Hs, Hv. destruct (operate ew p n). reflexivity.
    - pose proof (operate_logon p n) as [K1 K2]. unfold logon_of in K1.
      split; [|split; [congruence|rewrite operate_service by exact Ho; exact Hv]].
      split; [congruence|]. split; [exact L2|]. split; congruence.
  Qed.

  Lemma hear_settled : forall A n p, logged_on A n -> ~ 224 <= nth 1 p 0 < 240 -> hear p n = n.
  Proof.
    intros A n p (_ & _ & L3 & L4) Hn. unfold hear. destruct (negb (intact p)); [reflexivity|].
    destruct (Z.ltb_spec (nth 1 p 0) 208); [reflexivity|].
    destruct (Z.ltb_spec (nth 1 p 0) 224).
    - unfold hear_select. rewrite L4, andb_false_r. reflexivity.
    - destruct (Z.ltb_spec (nth 1 p 0) 240); [lia|]. unfold hear_enable. rewrite L3, andb_false_r. reflexivity.
  Qed.

  Lemma unconcerned : forall A n p, logged_on A n -> concerns (aval A) (Taken p) = false -> operate ew p n = (n, []).
  Proof.
    intros A n p (L1 & L2 & _) Hc. unfold operate, obeyed_as. cbn [concerns] in Hc.
    assert (K : has_number (n_logon n) (aval (address_of p)) = true -> aval (address_of p) = aval A).
    { unfold has_number. rewrite L1. destruct (atyp A); try discriminate; intros K; apply Z.eqb_eq in K; congruence. }
    apply Z.eqb_neq in L2. rewrite L1 in *. rewrite L2.
    destruct (atyp (address_of p)); try reflexivity; apply orb_false_elim in Hc; destruct Hc as [C1 C2]; rewrite C1;
      (destruct (has_number A (aval (address_of p))); [apply Z.eqb_neq in C2; elim C2; exact (K eq_refl)|reflexivity]).
  Qed.

  Lemma only_concerned : forall xs A n, settled A n -> Forall ordinary xs ->
    attend_all ew xs n = attend_all ew (filter (concerns (aval A)) xs) n /\ settled A (fst (attend_all ew xs n)).
  Proof.
    induction xs as [|x xs IH]; intros A n Hn Ho; [split; [reflexivity|exact Hn]|].
    inversion Ho as [|? ? Hx Hxs]; subst. cbn [filter attend_all]. destruct x as [|p|p]; cbn [attend ordinary] in *.
    - cbn [concerns attend_all attend]. assert (settled A (configure n)) as Hc by exact Hn. pose proof (IH A _ Hc Hxs) as [I1 I2].
      rewrite I1 in *. destruct (attend_all ew (filter (concerns (aval A)) xs) (configure n)). split; [reflexivity|exact I2].
    - rewrite (hear_settled A n p (proj1 Hn) Hx). cbn [concerns]. pose proof (IH A _ Hn Hxs) as [I1 I2].
      rewrite I1 in *. destruct (attend_all ew (filter (concerns (aval A)) xs) n). split; [reflexivity|exact I2].
    - destruct (settled_execution A n p Hn Hx) as [E1 E2]. rewrite E1.
      destruct (concerns (aval A) (Taken p)) eqn:Ec.
      + cbn [attend_all attend]. rewrite E1. destruct (operate ew p n) as [n1 a]. cbn [fst] in E2. pose proof (IH A _ E2 Hxs) as [I1 I2].
        rewrite I1 in *. destruct (attend_all ew (filter (concerns (aval A)) xs) n1). split; [reflexivity|exact I2].
      + rewrite (unconcerned A n p (proj1 Hn) Ec). pose proof (IH A _ Hn Hxs) as [I1 I2].
        rewrite I1 in *. destruct (attend_all ew (filter (concerns (aval A)) xs) n). split; [reflexivity|exact I2].
  Qed.

  (** Selected, then assigned *)
  Lemma not_heard : forall id n p, did (n_conf n) = id -> n_selected n = true -> not_for id p -> hear p n = n.
  Proof.
    intros id n p Hd Hs Hn. unfold hear. destruct (negb (intact p)); [reflexivity|].
    destruct (Z.ltb_spec (nth 1 p 0) 208); [reflexivity|].
    destruct (Z.ltb_spec (nth 1 p 0) 224).
    - unfold hear_select. rewrite Hd. destruct (_ && _ && _); [|reflexivity]. rewrite <- Hs. destruct n; reflexivity.
    - destruct (Z.ltb_spec (nth 1 p 0) 240).
      + destruct (understood _ _ _) as [A|]; [|reflexivity]. unfold hear_assign. rewrite Hd. unfold same_id.
        destruct (list_eq_dec Z.eq_dec (firstn 4 (skipn 3 p)) id) as [K|]; [elim Hn; split; [lia|exact K]|]. rewrite andb_false_r. reflexivity.
      + unfold hear_enable. rewrite Hs, andb_false_r. reflexivity.
  Qed.
  Lemma none_heard : forall ps id n, did (n_conf n) = id -> n_selected n = true -> Forall (not_for id) ps ->
    attend_all ew (map Heard ps) n = (n, []).
  Proof.
    induction ps as [|p ps IH]; intros id n Hd Hs Hf; [reflexivity|]. inversion Hf; subst. cbn [map attend_all attend].
    rewrite (not_heard (did (n_conf n)) n p eq_refl Hs) by assumption. rewrite (IH _ n eq_refl Hs) by assumption. reflexivity.
  Qed.

  Lemma says_id : forall p id, says p (Select id) -> firstn 4 (skipn 3 p) = id /\ 208 <= nth 1 p 0 < 224.
  Proof.
    intros p id H. inversion H as [|c man id0 rest Hc Hl|c man id0 a b x rest Hc Hl|]; subst. cbn [skipn nth].
    split; [|lia]. rewrite firstn_app, Hl, <- Hl, firstn_all, Nat.sub_diag. cbn [firstn]. apply app_nil_r.
  Qed.
  Lemma says_assign_at : forall p id a b, says p (Assign id a b) ->
    firstn 4 (skipn 3 p) = id /\ 224 <= nth 1 p 0 < 240 /\ nth 7 p 0 = a /\ nth 8 p 0 = b.
  Proof.
    intros p id a b H. inversion H as [|c man id0 rest Hc Hl|c man id0 a0 b0 x rest Hc Hl|]; subst. cbn [skipn].
    destruct id as [|i1 [|i2 [|i3 [|i4 [|]]]]]; try discriminate Hl. cbn [List.app firstn nth]. repeat split; lia.
  Qed.

  Lemma logged_in : forall n id A sel asg a b ps qs,
    logon_enabled (n_conf n) = true -> n_assigned n = false -> did (n_conf n) = id ->
    says sel (Select id) -> undamaged sel -> says asg (Assign id a b) -> undamaged asg ->
    understood a b (nth 9 asg 0) = Some A -> aval A <> 0 -> Forall (not_for id) ps -> Forall (not_for id) qs ->
    let x := attend_all ew (map Heard (sel :: ps ++ asg :: qs)) n in
    logged_on A (fst x) /\ snd x = [] /\ n_view (fst x) = n_view n /\ n_store (fst x) = true /\
    n_own (fst x) = if a <? 192 then A else n_own n.
  Proof.
    intros n id A sel asg a b ps qs He Hna Hd Hs Us Ha Ua Hu HA Hps Hqs.
    destruct (says_id _ _ Hs) as [S1 S2]. destruct (says_assign_at _ _ _ _ Ha) as (A1 & A2 & A3 & A4).
    apply undamaged_spec in Us, Ua. change (undamaged_b sel) with (intact sel) in Us. change (undamaged_b asg) with (intact asg) in Ua.
    cbn [map attend_all attend]. rewrite map_app. cbn [map].
    assert (same_id id (did (n_conf n)) = true) as Hid by (unfold same_id; rewrite Hd; destruct (list_eq_dec Z.eq_dec id id); congruence).
    assert (hear sel n = Node (n_view n) (n_own n) (n_consist n) (n_logon n) (n_conf n) true (n_assigned n) (n_store n) (n_known n) (n_new n)) as ->.
    { unfold hear. rewrite Us. cbn [negb]. replace (nth 1 sel 0 <? 208) with false by (symmetry; lia).
      replace (nth 1 sel 0 <? 224) with true by (symmetry; lia). unfold hear_select. rewrite S1, He, Hna, Hid. reflexivity. }
    set (n1 := Node _ _ _ _ _ true _ _ _ _).
    rewrite attend_app. rewrite (none_heard ps id n1 Hd eq_refl Hps). cbn [fst snd List.app attend_all attend].
    assert (hear asg n1 = hear_assign id A (a <? 192) n1) as ->.
    { unfold hear. rewrite Ua. cbn [negb]. replace (nth 1 asg 0 <? 208) with false by (symmetry; lia).
      replace (nth 1 asg 0 <? 224) with false by (symmetry; lia). replace (nth 1 asg 0 <? 240) with true by (symmetry; lia).
      rewrite A1, A3, A4, Hu. reflexivity. }
    assert (hear_assign id A (a <? 192) n1 = Node (n_view n) (if a <? 192 then A else n_own n) (no_number (n_consist n)) A (n_conf n)
      true true true (n_known n) (n_new n)) as ->.
    { unfold hear_assign. subst n1. cbn [n_conf n_view n_own n_consist n_logon n_selected n_assigned n_store n_known n_new].
      rewrite He, Hid. cbn [andb]. apply Z.eqb_neq in HA. rewrite HA. reflexivity. }
    set (n2 := Node _ _ _ _ _ true true true _ _).
    rewrite (none_heard qs id n2 Hd eq_refl Hqs). subst n2. cbn [fst snd n_view n_store n_own]. repeat split; auto.
  Qed.

  Lemma apart : forall A B n n' p, logged_on A n -> logged_on B n' -> aval A <> aval B -> aval (address_of p) <> 0 ->
    operate ew p n = (n, []) \/ operate ew p n' = (n', []).
  Proof.
    intros A B n n' p HA HB Hn Hp. destruct (concerns (aval A) (Taken p)) eqn:CA; [|left; exact (unconcerned A n p HA CA)].
    right. apply (unconcerned B n' p HB). cbn [concerns] in *. apply Z.eqb_neq in Hp. rewrite Hp in *.
    destruct (atyp (address_of p)); try reflexivity; cbn [orb] in *; apply Z.eqb_eq in CA; apply Z.eqb_neq; congruence.
  Qed.

  (** The address handed out stands for the own one *)
  Definition alike n n' : Prop :=
    v_cvs (n_view n) = v_cvs (n_view n') /\ v_service (n_view n) = v_service (n_view n') /\ v_page (n_view n) = v_page (n_view n') /\
    v_times (n_view n) = v_times (n_view n') /\ n_own n = n_own n' /\ n_conf n = n_conf n' /\ n_store n = n_store n'.
  Lemma alike_configure : forall n n', alike n n' -> alike (configure n) (configure n').
  Proof. intros n n' (A & B & C & D & F & G & H). unfold configure, alike. cbn. rewrite A. repeat split; assumption. Qed.
  Lemma alike_cvs : forall n n' c, alike n n' -> alike (on_view (with_cvs c) n) (on_view (with_cvs c) n').
  Proof. intros n n' c (A & B & C & D & F & G & H). unfold alike. cbn. repeat split; assumption. Qed.
  Lemma carry_last : forall x n, v_last (n_view (fst (carry x n))) = v_last (n_view n).
  Proof. intros x n. unfold carry. destruct (permitted _ x); [|auto]. cbn [fst]. destruct (configuring x); reflexivity. Qed.
  Lemma carry_all_last : forall xs n, v_last (n_view (fst (carry_all xs n))) = v_last (n_view n).
  Proof.
    induction xs as [|x xs IH]; intros n; cbn [carry_all]; [reflexivity|].
    pose proof (carry_last x n) as A. destruct (carry x n) as [n1 a]. pose proof (IH n1) as C. destruct (carry_all xs n1) as [n2 b].
    cbn [fst] in *. congruence.
  Qed.
  Lemma carry_alike : forall x n n', alike n n' -> alike (fst (carry x n)) (fst (carry x n')) /\ snd (carry x n) = snd (carry x n').
  Proof.
    intros x n n' HA. pose proof HA as (A & B & C & D & F & G & H). unfold carry. rewrite <- G, <- A, <- B.
    destruct (permitted _ x); [|split; [exact HA|reflexivity]]. cbn [fst snd]. split; [|reflexivity].
    destruct (configuring x); [apply alike_configure|]; apply alike_cvs; exact HA.
  Qed.
  Lemma carry_all_alike : forall xs n n', alike n n' ->
    alike (fst (carry_all xs n)) (fst (carry_all xs n')) /\ snd (carry_all xs n) = snd (carry_all xs n').
  Proof.
    induction xs as [|x xs IH]; intros n n' HA; cbn [carry_all]; [split; [exact HA|reflexivity]|].
    pose proof (carry_alike x n n' HA) as [K1 K2]. destruct (carry x n) as [n1 a], (carry x n') as [n1' a']. cbn [fst snd] in K1, K2.
    pose proof (IH _ _ K1) as [L1 L2]. destruct (carry_all xs n1) as [n2 b], (carry_all xs n1') as [n2' b']. cbn [fst snd] in *.
    split; [exact L1|congruence].
  Qed.

  Lemma turned_own : forall o c c' k f, k = aval o -> turned (Mk_addrs o c addr0 addr0) k f = turned (Mk_addrs o c' addr0 addr0) k f.
  Proof. intros o c c' k f ->. unfold turned. cbn [primary]. rewrite Z.eqb_refl. reflexivity. Qed.
  Lemma drives_alike : forall n n' b0 t, alike n n' -> drives ew n (aval (n_own n)) b0 t = drives ew n' (aval (n_own n)) b0 t.
  Proof.
    intros n n' b0 t (A & B & C & D & F & G & H). unfold drives, in_force. rewrite <- F, <- G.
    unfold speed126_calls, speed28_calls, drive.
    rewrite !(turned_own (n_own n) (n_consist n) (n_consist n') _ _ eq_refl). reflexivity.
  Qed.

  (** The checksum is no operand *)
  Lemma drives_checksum : forall n k b0 ops c c', 0x20 <= b0 < 0xE0 -> (operands b0 <= length ops)%nat ->
    drives ew n k b0 (ops ++ [c]) = drives ew n k b0 (ops ++ [c']).
  Proof.
    intros n k b0 ops c c' Hb Ho. unfold operands in Ho. replace (b0 <? 0x10) with false in Ho by (symmetry; lia).
    replace (b0 <? 0x20) with false in Ho by (symmetry; lia). replace (b0 <? 0xE0) with true in Ho by (symmetry; lia).
    cbn [existsb] in Ho. unfold drives.
    destruct (b0 =? 0x3C) eqn:E1, (b0 =? 0x3E) eqn:E2, (b0 =? 0x3F) eqn:E3, (b0 =? 0xDE) eqn:E4, (b0 =? 0xDF) eqn:E5; cbn [orb] in Ho;
      (destruct ops as [|o ops]; [cbn [length] in Ho; try lia|]); cbn [List.app hd tl]; rewrite ?removelast_last; reflexivity.
  Qed.
  Lemma short_checksum : forall j b0 ops c c', 0xF0 <= b0 -> (operands b0 <= length ops)%nat ->
    short_request j b0 (nth 0 (ops ++ [c]) 0) (nth 1 (ops ++ [c]) 0) = short_request j b0 (nth 0 (ops ++ [c']) 0) (nth 1 (ops ++ [c']) 0).
  Proof.
    intros j b0 ops c c' Hb Ho. unfold operands in Ho. replace (b0 <? 0x10) with false in Ho by (symmetry; lia).
    replace (b0 <? 0x20) with false in Ho by (symmetry; lia). replace (b0 <? 0xE0) with false in Ho by (symmetry; lia).
    replace (b0 <? 0xF0) with false in Ho by (symmetry; lia). unfold short_request.
    assert (N : forall i, (i < length ops)%nat -> nth i (ops ++ [c]) 0 = nth i (ops ++ [c']) 0) by (intros i Hi; rewrite !app_nth1 by exact Hi; reflexivity).
    destruct (b0 mod 16) as [|[[q|[|q|]|]|[[]|[]|]|]|]; try reflexivity; rewrite ?(N 0%nat), ?(N 1%nat) by lia; reflexivity.
  Qed.

  Lemma stands_for : forall A n n' p p', logged_on A n -> aval (n_logon n') = 0 -> same_but_logon p p' n n' ->
    has_number A (aval (address_of p)) = true -> In (atyp (address_of p)) [ATShort; ATLong] ->
    has_number (n_own n') (aval (address_of p')) = true -> In (atyp (address_of p')) [ATShort; ATLong] -> aval (n_own n') <> 0 ->
    aval (n_own n') <> aval (n_consist n) -> aval (n_own n') <> aval (n_consist n') ->
    forall b0 ops c c', body_of p = b0 :: ops ++ [c] -> body_of p' = b0 :: ops ++ [c'] -> (operands b0 <= length ops)%nat ->
    snd (operate ew p n) = snd (operate ew p' n') /\ same_but_logon p p' (fst (operate ew p n)) (fst (operate ew p' n')).
  Proof.
    intros A n n' p p' (L1 & L2 & _) L' (S1 & S2 & S3 & S4 & S5 & S6 & S7 & S8) HA HAt HO HOt Hn Hc Hc' b0 ops c c' Hb Hb' Hops.
    assert (alike n n') as AL by (repeat split; assumption).
    assert (N : forall a k, has_number a k = true -> aval a = k).
    { intros a k. unfold has_number. destruct (atyp a); try discriminate; apply Z.eqb_eq. }
    assert (obeyed_as n p = Some (aval (n_own n'))) as O1.
    { unfold obeyed_as. rewrite L1, HA, <- (N _ _ HA), S6. apply Z.eqb_neq in L2. rewrite L2.
      destruct HAt as [<- | [<- | []]]; reflexivity. }
    assert (obeyed_as n' p' = Some (aval (n_own n'))) as O2.
    { unfold obeyed_as. rewrite L', HO, <- (N _ _ HO). apply Z.eqb_neq in Hn. rewrite Hn.
      destruct HOt as [<- | [<- | []]]; reflexivity. }
    unfold operate. rewrite O1, O2, Hb, Hb'. apply Z.eqb_neq in Hn, Hc, Hc'. rewrite Hn, Hc, Hc'. cbn [negb andb].
    assert (same_but_logon p p' n n') as SB by (repeat split; try assumption; apply S5).
    assert (W : forall x y, alike x y -> v_last (n_view x) = v_last (n_view n) -> v_last (n_view y) = v_last (n_view n') -> same_but_logon p p' x y).
    { intros x y (W1 & W2 & W3 & W4 & W5 & W6 & W7) V1 V2. unfold same_but_logon. rewrite V1, V2. repeat split; try assumption; apply S5. }
    destruct (Z.ltb_spec b0 0x10) as [|B1]; [split; [reflexivity|exact SB]|].
    destruct (Z.ltb_spec b0 0x20) as [B2|B2].
    { assert (hd 0 (ops ++ [c]) = hd 0 (ops ++ [c'])) as ->.
      { unfold operands in Hops. replace (b0 <? 0x10) with false in Hops by (symmetry; lia). replace (b0 <? 0x20) with true in Hops by (symmetry; lia).
        destruct ops; [cbn [length] in Hops; lia|reflexivity]. }
      set (x := Store _ _). pose proof (carry_alike x n n' AL) as [K1 K2]. split; [exact K2|]. apply W; [exact K1|apply carry_last|apply carry_last]. }
    destruct (Z.ltb_spec b0 0xE0) as [B3|B3].
    { cbn [fst snd]. split; [|exact SB]. rewrite <- S6, (drives_alike n n' b0 _ AL), (drives_checksum n' _ b0 ops c c') by (exact Hops || lia). reflexivity. }
    assert (alike (on_view (count p) n) (on_view (count p') n')) as AC.
    { unfold alike, on_view, count. cbn. repeat split; try assumption.
      destruct (list_eq_dec Z.eq_dec (v_last (n_view n)) p) as [K|K], (list_eq_dec Z.eq_dec (v_last (n_view n')) p') as [K'|K']; try congruence; tauto. }
    assert (v_times (n_view (on_view (count p) n)) = v_times (n_view (on_view (count p') n'))) as <- by apply AC.
    assert ((if b0 <? 0xF0 then flat_map (due (v_times (n_view (on_view (count p) n)))) (request b0 (nth 0 (ops ++ [c']) 0) (nth 1 (ops ++ [c']) 0))
             else short_request (v_times (n_view (on_view (count p) n))) b0 (nth 0 (ops ++ [c']) 0) (nth 1 (ops ++ [c']) 0)) =
            (if b0 <? 0xF0 then flat_map (due (v_times (n_view (on_view (count p) n)))) (request b0 (nth 0 (ops ++ [c]) 0) (nth 1 (ops ++ [c]) 0))
             else short_request (v_times (n_view (on_view (count p) n))) b0 (nth 0 (ops ++ [c]) 0) (nth 1 (ops ++ [c]) 0))) as ->.
    { destruct (Z.ltb_spec b0 0xF0) as [B4|B4]; [|apply short_checksum; assumption].
      unfold operands in Hops. replace (b0 <? 0x10) with false in Hops by (symmetry; lia). replace (b0 <? 0x20) with false in Hops by (symmetry; lia).
      replace (b0 <? 0xE0) with false in Hops by (symmetry; lia). replace (b0 <? 0xF0) with true in Hops by (symmetry; lia).
      rewrite !app_nth1 by lia. reflexivity. }
    match goal with |- snd (carry_all ?xs _) = _ /\ _ => pose proof (carry_all_alike xs _ _ AC) as [K1 K2] end.
    split; [exact K2|]. destruct K1 as (W1 & W2 & W3 & W4 & W5 & W6 & W7). unfold same_but_logon. rewrite !carry_all_last.
    repeat split; assumption || (intros _; reflexivity).
  Qed.
End Logon.

Section Runs.
  Context {I : Type} (E : Env I) (m : I -> Z -> Z) (able : access -> Prop) (Hk : keeps_cvs able E m).
  Lemma inputs_app : forall a b l, inputs (a ++ b) l = inputs a l ++ inputs b (listen_all a l).
  Proof. induction a as [|o a IH]; intros b l; [reflexivity|]. cbn [List.app]. rewrite !inputs_cons, IH, app_assoc. reflexivity. Qed.

  Lemma handed_out_obeyed : forall os1 os2 i s es A, run E (os1 ++ os2) (st0 i) = Ok (tt, s, es) ->
    let n := fst (attend_all (e_east_west E) (inputs os1 listener0) (new_node (m i))) in
    let xs := inputs os2 (listen_all os1 listener0) in
    let ys := attend_all (e_east_west E) (filter (concerns (aval A)) xs) n in
    logged_on A n -> n_store n = false -> v_service (n_view n) = false -> Forall ordinary xs ->
    Forall (allowed able) (snd (attend_all (e_east_west E) (inputs os1 listener0) (new_node (m i)))) -> Forall (allowed able) (snd ys) ->
    exists s1 e1 e2, run E os1 (st0 i) = Ok (tt, s1, e1) /\ run E os2 s1 = Ok (tt, s, e2) /\ es = e1 ++ e2 /\
      seen_in e2 = snd ys /\ (forall a, m (app s) a = v_cvs (n_view (fst ys)) a) /\ logon (r_addrs (rxs s)) = A.
  Proof.
    intros os1 os2 i s es A H n xs ys HL Hs Hv Ho Hal1 Hal2. pose proof H as H0.
    apply run_app in H. destruct H as (s1 & e1 & e2 & H1 & H2 & ->). exists s1, e1, e2.
    split; [exact H1|]. split; [exact H2|]. split; [reflexivity|].
    destruct (only_concerned (e_east_west E) xs A n (conj HL (conj Hs Hv)) Ho) as [K1 (K2 & _)].
    pose proof (node_run E m able Hk _ _ _ _ H1 Hal1) as [R1 _].
    pose proof (node_run E m able Hk _ _ _ _ H0) as R. cbv zeta in R. rewrite inputs_app, attend_app in R. cbn [fst snd] in R.
    fold n xs in R. rewrite K1 in R, K2. fold ys in R, K2.
    specialize (R ltac:(apply Forall_app; split; assumption)). destruct R as [R2 (R3 & R4)]. rewrite seen_app, R1 in R2. apply app_inv_head in R2.
    split; [exact R2|]. split; [exact R3|]. destruct K2 as [K2 _]. unfold nregs, registers in R4. congruence.
  Qed.
End Runs.
