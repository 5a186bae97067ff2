(** datagram() interrupted by the handlers: whole calls and sequences of them. *)
From Verif Require Import Prelude Address Instruction SpecCodec Datagram RxState Rx RxLogic RxInv SpecRx SpecConf SpecBidi RxBitProofs ExecProofs
  ZBits SaneProofs BidiProofs BidiProofs2 BidiProofs4 BidiProofs6 Preempt SpecPreempt PreemptProofs2 PreemptProofs4 PreemptData SpecOffer OfferProofs OfferProofs2.

Section Calls.
  Context {I : Type} (E : Env I).
  Implicit Types s : st I.
  Notation moved := (moved (I := I)).

  Lemma moved_nil : forall s s1 s2 m1 m2 ps, moved s s1 m1 [] -> moved s1 s2 m2 ps -> moved s s2 (m1 ++ m2) ps.
  Proof. intros s s1 s2 m1 m2 ps H1 H2. exact (moved_trans _ _ _ _ _ [] ps H1 H2). Qed.

  Lemma push_moved : forall d x w s o s' es, byte d -> 0 <= x < 64 -> Forall (Forall handler) w -> fit (rxs s) ->
    preempted E (dyn_pushP d x) w s = Ok (o, s', es) -> exists ps,
    moved s s' (meanwhile E (dyn_pushP d x) w s) ps /\ kept s s' /\ part ps [(d, x)] /\
    (channel2_on s = false -> ps = []) /\ (channel2_on s = true -> (length (data_waiting s) < 7)%nat -> ps = [(d, x)]).
  Proof.
    intros d x w s o s' es Hd Hx Hw Hf H. unfold dyn_pushP in *.
    destruct (first_rd E _ _ _ _ _ _ _ _ _ Hw Hf H) as (s1 & m1 & o1 & e1 & M1 & K1 & H1 & R1 & Hw1). rewrite R1. clear R1 H.
    fold (channel2_on s1) in *. rewrite (proj1 (proj2 K1)) in *.
    destruct (channel2_on s); cbn [negb] in *.
    2: { apply done in H1. destruct H1 as [-> ->]. exists []. split; [apply (moved_nil _ s1); [exact M1|apply moved_refl; exact (moved_fit _ _ _ _ M1)]|].
         split; [exact K1|]. split; [apply part_none|]. split; [reflexivity|discriminate]. }
    unfold fullP in *.
    destruct (first_rd E _ _ _ _ _ _ _ _ _ Hw1 (moved_fit _ _ _ _ M1) H1) as (s2 & m2 & o2 & e2 & M2 & K2 & H2 & R2 & Hw2). rewrite R2. clear R2 H1.
    pose proof (moved_nil _ _ _ _ _ _ M1 M2) as M3. pose proof (kept_trans _ _ _ K1 K2) as K3. pose proof (moved_fit _ _ _ _ M2) as F2.
    pose proof (moved_length _ _ _ _ M3) as L3. cbn [length] in L3.
    fold (data_waiting s2) in *. change rx_bidi_deque_size with 7%nat in *.
    destruct (Nat.eqb_spec (length (data_waiting s2)) 7) as [E7|E7].
    { apply done in H2. destruct H2 as [-> ->]. exists []. rewrite app_nil_r. split; [exact M3|].
      split; [exact K3|]. split; [apply part_none|]. split; [reflexivity|]. intros _ L. lia. }
    assert (L2 : (length (data_waiting s2) <= 7)%nat) by (destruct F2 as [T _]; open_talk T; exact Hdl).
    unfold byte in Hd. destruct (id_carries B18 7 (64 * d + x)) as (cs & C1 & C2); [lia|change (2 ^ id_bits B18) with 16384; lia|].
    assert (CC : rbind (make_datagram_id B18 7 (Z.lor (Z.shiftl d 6) x)) encode_datagram = Ok cs).
    { rewrite Z.shiftl_mul_pow2, lor_add by (change (2 ^ 6) with 64; lia). replace (d * 2 ^ 6 + x) with (64 * d + x) by (change (2 ^ 6) with 64; lia). exact C1. }
    rewrite CC in *. cbn [local pbind] in *.
    assert (HW : preempted E (pbind (wr (fun r => set_dyn_deque (dyn_deque (r_bidi r) ++ [cs]) r)) Done) (tl (tl w)) s2 = Ok (o2, s', e2)) by exact H2.
    destruct (first_wr E _ _ _ _ _ _ _ _ Hw2 F2 HW) as (s4 & m4 & o4 & e4 & M4 & K4 & H4 & R4 & _).
    change (pbind (wr ?f) Done) with (wr (I := I) f) in R4. rewrite R4. apply done in H4. destruct H4 as [-> ->]. rewrite app_nil_r.
    pose proof (moved_fit _ _ _ _ M4) as F4. pose proof (moved_length _ _ _ _ M4) as L4. cbn [length] in L4.
    exists [(d, x)]. split; [|split; [|split; [apply part_refl|split; [discriminate|reflexivity]]]].
    - rewrite app_assoc. change [(d, x)] with ([] ++ [(d, x)]). rewrite <- (app_nil_r ((m1 ++ m2) ++ m4)).
      apply moved_trans with s4; [apply (moved_nil _ s2); assumption|].
      exists [], [cs]. split; [exists []; split; [reflexivity|constructor]|]. split; [constructor|]. split.
      { constructor; [|constructor]. unfold says_point. cbn [fst snd]. change (datagram_size B18) with 3%nat in C2. change (2 ^ id_bits B18) with 16384 in C2.
        replace (16384 * 7 + 64 * d + x) with (7 * 16384 + (64 * d + x)) by lia. exact C2. }
      split; [reflexivity|]. cbn [rxs]. destruct F4 as (T4 & S4 & B4). split; [|split; [exact S4|exact B4]].
      apply id_shaped in C1. change (datagram_size B18) with 3%nat in C1. open_talk T4. unfold talk. unfold data_waiting in *. cbn. close_talk.
      + apply Forall_app. split; [exact Hdy|]. constructor; [exact C1|constructor].
      + rewrite app_length. cbn [length]. lia.
    - apply kept_trans with s4; [apply kept_trans with s2; assumption|]. repeat split.
  Qed.

  Lemma bind_moved : forall A C (P : prog A) (k : A -> prog C) w s o s' es, Forall (Forall handler) w ->
    preempted E (pbind P k) w s = Ok (o, s', es) -> exists a w' s1 o1 e1 o2 e2,
    preempted E P w s = Ok (o1, s1, e1) /\ fst (fst o1) = a /\ preempted E (k a) w' s1 = Ok (o2, s', e2) /\ Forall (Forall handler) w' /\
    meanwhile E (pbind P k) w s = meanwhile E P w s ++ meanwhile E (k a) w' s1.
  Proof.
    intros A C P k w s o s' es Hw H. apply preempted_pbind in H.
    destruct H as (a & sn1 & sv1 & s1 & e1 & c & sn2 & sv2 & e2 & H1 & H2 & _ & _).
    exists a, (skipn (length sn1) w), s1, (a, sn1, sv1), e1, (c, sn2, sv2), e2. split; [exact H1|]. split; [reflexivity|]. split; [exact H2|].
    split; [apply handlers_skipn; exact Hw|]. exact (meanwhile_pbind E _ _ _ _ _ _ _ _ _ _ _ H1).
  Qed.

  Lemma all_moved : forall ds w s o s' es, Forall in_range ds -> Forall (Forall handler) w -> fit (rxs s) ->
    preempted E (dyn_allP ds) w s = Ok (o, s', es) -> exists ps,
    moved s s' (meanwhile E (dyn_allP ds) w s) ps /\ kept s s' /\ part ps (map point_of ds) /\
    (channel2_on s = false -> ps = []) /\ (channel2_on s = true -> part (firstn (7 - length (data_waiting s)) (map point_of ds)) ps).
  Proof.
    induction ds as [|a ds IH]; intros w s o s' es Hr Hw Hf H.
    - apply done in H. destruct H as [-> H]. exists []. cbn [dyn_allP map] in *. rewrite H. split; [apply moved_refl; exact Hf|].
      split; [apply kept_refl|]. split; [constructor|]. split; [reflexivity|]. intros _. rewrite firstn_nil. constructor.
    - inversion Hr as [|? ? Ha Hr']; subst. destruct (convert_point a Ha) as (Hc & Hb & Hx). cbn [dyn_allP] in *. rewrite Hc in *.
      destruct (bind_moved _ _ _ _ _ _ _ _ _ Hw H) as (u & w1 & s1 & o1 & e1 & o2 & e2 & H1 & _ & H2 & Hw1 & R). rewrite R. clear R.
      destruct (push_moved _ _ _ _ _ _ _ Hb Hx Hw Hf H1) as (p1 & M1 & K1 & P1 & A1 & B1).
      destruct (IH _ _ _ _ _ Hr' Hw1 (moved_fit _ _ _ _ M1) H2) as (p2 & M2 & K2 & P2 & A2 & B2).
      pose proof (proj1 (proj2 K1)) as Kc. rewrite Kc in *. rewrite <- surjective_pairing in *.
      exists (p1 ++ p2). split; [apply moved_trans with s1; assumption|]. split; [apply kept_trans with s1; assumption|].
      split; [exact (part_app _ _ P1 _ _ P2)|]. split; [intros Hn; rewrite A1, A2 by exact Hn; reflexivity|]. intros Hy. specialize (B2 Hy).
      pose proof (moved_length _ _ _ _ M1) as L1.
      destruct (7 - length (data_waiting s))%nat as [|k] eqn:Ek; [apply part_none|]. rewrite (B1 Hy) in * by lia. cbn [length] in L1.
      cbn [map List.app]. rewrite firstn_cons. apply part_keep. apply part_trans with (firstn (7 - length (data_waiting s1)) (map point_of ds)); [exact B2|].
      apply part_firstn. lia.
  Qed.

  Lemma call_moved : forall ds w s o s' es, Forall in_range ds -> Forall (Forall handler) w -> fit (rxs s) ->
    preempted E (datagramP ds) w s = Ok (o, s', es) -> exists ps,
    moved s s' (meanwhile E (datagramP ds) w s) ps /\ takes (s, ds) ps.
  Proof.
    intros ds w s o s' es Hr Hw Hf H. unfold datagramP, fullP in *.
    destruct (first_rd E _ _ _ _ _ _ _ _ _ Hw Hf H) as (s1 & m1 & o1 & e1 & M1 & K1 & H1 & R1 & Hw1). rewrite R1. clear R1 H.
    pose proof (moved_length _ _ _ _ M1) as L1. cbn [length] in L1. pose proof (moved_fit _ _ _ _ M1) as F1.
    assert (L0 : (length (data_waiting s) <= 7)%nat) by (destruct Hf as [T _]; open_talk T; exact Hdl).
    fold (data_waiting s1) in *. change rx_bidi_deque_size with 7%nat in *. unfold takes. cbn [fst snd]. unfold accepted.
    (* the end of the program *)
    assert (Tail : forall sA mA pA w' b o' e', moved s sA mA pA -> kept s sA \/ data_blocked sA = b -> Forall (Forall handler) w' ->
      data_blocked sA = b -> quality sA = quality s -> channel2_on sA = channel2_on s ->
      preempted E (pbind (rd (fun r => block_dyn (r_bidi r))) (fun b0 : bool => if b0 then Done tt else dyn_allP ds)) w' sA = Ok (o', s', e') ->
      exists p2, moved s s' (mA ++ meanwhile E (pbind (rd (fun r => block_dyn (r_bidi r))) (fun b0 : bool => if b0 then Done tt else dyn_allP ds)) w' sA) (pA ++ p2) /\
        part p2 (map point_of ds) /\ (b = false -> channel2_on s = true -> part (firstn (7 - length (data_waiting sA)) (map point_of ds)) p2)).
    { intros sA mA pA w' b o' e' MA _ Hw' Hb Hq Hc H.
      destruct (first_rd E _ _ _ _ _ _ _ _ _ Hw' (moved_fit _ _ _ _ MA) H) as (s3 & m3 & o3 & e3 & M3 & K3 & H3 & R3 & Hw3). rewrite R3. clear R3 H.
      destruct K3 as (K31 & K32 & K33). fold (data_blocked s3) in *. rewrite K33, Hb in *. pose proof (moved_length _ _ _ _ M3) as L3. cbn [length] in L3.
      pose proof (moved_trans _ _ _ _ _ _ _ MA M3) as MB. rewrite app_nil_r in MB. destruct b.
      - apply done in H3. destruct H3 as [-> ->]. exists []. rewrite !app_nil_r. split; [exact MB|]. split; [apply part_none|discriminate].
      - destruct (all_moved _ _ _ _ _ _ Hr Hw3 (moved_fit _ _ _ _ M3) H3) as (p2 & M4 & K4 & P4 & A4 & B4). exists p2. rewrite app_assoc.
        split; [apply moved_trans with s3; assumption|]. split; [exact P4|]. intros _ Hy.
        apply part_trans with (firstn (7 - length (data_waiting s3)) (map point_of ds)); [apply B4; congruence|apply part_firstn; lia]. }
    destruct (Nat.eqb_spec (length (data_waiting s1)) 7) as [E7|E7].
    - (* full *)
      destruct (first_wr E _ _ _ _ _ _ _ _ Hw1 F1 H1) as (s2 & m2 & o2 & e2 & M2 & K2 & H2 & R2 & Hw2). rewrite R2. clear R2 H1.
      set (sA := Mk_st (set_block_dyn true (rxs s2)) (app s2) (pending s2)) in *.
      assert (MA : moved s sA (m1 ++ m2) []).
      { pose proof (moved_nil _ _ _ _ _ _ M1 M2) as (g & n & X1 & X2 & X3 & X4 & X5 & X6 & X7). exists g, n.
        split; [exact X1|]. split; [exact X2|]. split; [exact X3|]. split; [exact X4|]. split; [exact X5|]. split; [exact X6|exact X7]. }
      destruct (kept_trans _ _ _ K1 K2) as (Q1 & Q2 & Q3).
      destruct (Tail sA (m1 ++ m2) [] _ true _ _ MA (or_intror eq_refl) Hw2 eq_refl Q1 Q2 H2) as (p2 & X1 & X2 & _).
      exists p2. rewrite app_assoc. split; [exact X1|]. split; [|apply part_skip; exact X2].
      assert (EE : length (data_waiting s) = 7%nat) by lia. rewrite EE. cbn [Nat.sub firstn]. destruct (_ && _); apply part_none.
    - unfold emptyP in *.
      change (pbind (pbind (rd (fun r => (length (dyn_deque (r_bidi r)) =? 0)%nat))
        (fun e : bool => if e then pbind (wr (set_block_dyn false)) (fun _ => pbind (rd (fun r => qos (r_cnt r))) (fun q => dyn_pushP q 7)) else Done tt))
        (fun _ => pbind (rd (fun r => block_dyn (r_bidi r))) (fun b : bool => if b then Done tt else dyn_allP ds)))
        with (pbind (rd (fun r => (length (dyn_deque (r_bidi r)) =? 0)%nat)) (fun e : bool => pbind (I := I)
          (if e then pbind (wr (set_block_dyn false)) (fun _ => pbind (rd (fun r => qos (r_cnt r))) (fun q => dyn_pushP q 7)) else Done tt)
          (fun _ => pbind (rd (fun r => block_dyn (r_bidi r))) (fun b : bool => if b then Done tt else dyn_allP ds)))) in *.
      destruct (first_rd E _ _ _ _ _ _ _ _ _ Hw1 F1 H1) as (s2 & m2 & o2 & e2 & M2 & K2 & H2 & R2 & Hw2). rewrite R2. clear R2 H1.
      pose proof (moved_length _ _ _ _ M2) as L2. cbn [length] in L2. pose proof (moved_fit _ _ _ _ M2) as F2. fold (data_waiting s2) in *.
      pose proof (moved_nil _ _ _ _ _ _ M1 M2) as M12. pose proof (kept_trans _ _ _ K1 K2) as K12. rewrite app_assoc.
      destruct (Nat.eqb_spec (length (data_waiting s2)) 0) as [E0|E0].
      + (* found empty *)
        change (pbind (pbind (wr (set_block_dyn false)) (fun _ => pbind (rd (fun r => qos (r_cnt r))) (fun q => dyn_pushP q 7)))
          (fun _ => pbind (rd (fun r => block_dyn (r_bidi r))) (fun b : bool => if b then Done tt else dyn_allP ds)))
          with (pbind (wr (set_block_dyn false)) (fun _ => pbind (I := I) (pbind (rd (fun r => qos (r_cnt r))) (fun q => dyn_pushP q 7))
          (fun _ => pbind (rd (fun r => block_dyn (r_bidi r))) (fun b : bool => if b then Done tt else dyn_allP ds)))) in *.
        destruct (first_wr E _ _ _ _ _ _ _ _ Hw2 F2 H2) as (s3 & m3 & o3 & e3 & M3 & K3 & H3 & R3 & Hw3). rewrite R3. clear R3 H2.
        pose proof (moved_length _ _ _ _ M3) as L3. cbn [length] in L3. destruct (kept_trans _ _ _ K12 K3) as (Q1 & Q2 & _).
        set (sA := Mk_st (set_block_dyn false (rxs s3)) (app s3) (pending s3)) in *.
        assert (MA : moved s sA ((m1 ++ m2) ++ m3) []).
        { pose proof (moved_nil _ _ _ _ _ _ M12 M3) as (g & n & X1 & X2 & X3 & X4 & X5 & X6 & X7). exists g, n.
          split; [exact X1|]. split; [exact X2|]. split; [exact X3|]. split; [exact X4|]. split; [exact X5|]. split; [exact X6|exact X7]. }
        assert (BA : data_blocked sA = false) by reflexivity. assert (QA : quality sA = quality s) by exact Q1.
        assert (CA : channel2_on sA = channel2_on s) by exact Q2. assert (DA : length (data_waiting sA) = 0%nat) by (change (data_waiting sA) with (data_waiting s3); lia).
        clearbody sA. rewrite app_assoc. clear Q1 Q2 M12 M3.
        change (pbind (pbind (rd (fun r => qos (r_cnt r))) (fun q => dyn_pushP q 7))
          (fun _ => pbind (rd (fun r => block_dyn (r_bidi r))) (fun b : bool => if b then Done tt else dyn_allP ds)))
          with (pbind (rd (fun r => qos (r_cnt r))) (fun q => pbind (I := I) (dyn_pushP q 7)
          (fun _ => pbind (rd (fun r => block_dyn (r_bidi r))) (fun b : bool => if b then Done tt else dyn_allP ds)))) in *.
        destruct (first_rd E _ _ _ _ _ _ _ _ _ Hw3 (moved_fit _ _ _ _ MA) H3) as (s4 & m4 & o4 & e4 & M4 & (Q1 & Q2 & Q3) & H4 & R4 & Hw4). rewrite R4. clear R4 H3.
        pose proof (moved_length _ _ _ _ M4) as L4. cbn [length] in L4. fold (quality s4) in *. rewrite Q1, QA in *. pose proof (moved_fit _ _ _ _ M4) as F4.
        destruct (bind_moved _ _ _ _ _ _ _ _ _ Hw4 H4) as (u & w5 & s5 & o5 & e5 & o6 & e6 & H5 & _ & H6 & Hw5 & R5). rewrite R5. clear R5.
        assert (BQ : byte (quality s)) by exact (proj2 (proj2 Hf)). assert (S7 : 0 <= 7 < 64) by lia.
        destruct (push_moved _ _ _ _ _ _ _ BQ S7 Hw4 F4 H5) as (p5 & M5 & (V1 & V2 & V3) & P5 & A5 & B5).
        pose proof (moved_length _ _ _ _ M5) as L5. rewrite Q2, CA in *.
        pose proof (moved_trans _ _ _ _ _ _ _ (moved_trans _ _ _ _ _ _ _ MA M4) M5) as M6. cbn [List.app] in M6.
        destruct (Tail s5 _ p5 w5 false o6 e6 M6 (or_intror (eq_trans V3 (eq_trans Q3 BA))) Hw5 (eq_trans V3 (eq_trans Q3 BA)) ltac:(congruence) ltac:(congruence) H6)
          as (p6 & X1 & X2 & X3). rewrite !app_assoc in *.
        exists (p5 ++ p6). split; [exact X1|]. split.
        * destruct (channel2_on s) eqn:Ec.
          -- specialize (X3 eq_refl eq_refl). rewrite (B5 eq_refl) in * by lia. cbn [length] in L5.
             assert (X4 : part (firstn 6 (map point_of ds)) p6).
             { apply part_trans with (firstn (7 - length (data_waiting s5)) (map point_of ds)); [exact X3|apply part_firstn; lia]. }
             destruct (length (data_waiting s)) as [|n]; [rewrite firstn_cons; apply part_keep; exact X4|].
             cbn [andb]. destruct (negb _); [|apply part_none]. cbn [List.app]. apply part_skip.
             apply part_trans with (firstn 6 (map point_of ds)); [exact X4|apply part_firstn; lia].
          -- destruct (length (data_waiting s)); apply part_none.
        * change ((quality s, 7) :: map point_of ds) with ([(quality s, 7)] ++ map point_of ds). apply part_app; assumption.
      + (* not empty *)
        change (pbind (Done (I := I) tt) ?k) with (k tt) in *. cbv beta in *.
        destruct K12 as (Q1 & Q2 & Q3).
        destruct (Tail s2 _ [] _ (data_blocked s) _ _ M12 (or_intror Q3) Hw2 Q3 Q1 Q2 H2) as (p2 & X1 & X2 & X3).
        exists p2. split; [exact X1|]. split; [|apply part_skip; exact X2].
        destruct (length (data_waiting s)) as [|n] eqn:En; [lia|].
        destruct (channel2_on s); cbn [andb]; [|apply part_none]. destruct (data_blocked s); cbn [negb]; [apply part_none|].
        apply part_trans with (firstn (7 - length (data_waiting s2)) (map point_of ds)); [auto|apply part_firstn; lia].
  Qed.

  (** ** Sequences of calls *)
  Lemma offering_moved : forall ts s cs s' es, Forall proper ts -> fit (rxs s) -> offering E ts s = Ok (cs, s', es) ->
    exists parts, moved s s' (offering_moments E ts s) (concat parts) /\ Forall2 takes cs parts.
  Proof.
    induction ts as [|[[os ds] w] ts IH]; intros s cs s' es Hp Hf H.
    - inversion H; subst. exists []. split; [apply moved_refl; exact Hf|constructor].
    - inversion Hp as [|? ? HT Hp']; subst. destruct HT as (P1 & P2 & P3). cbn [offering] in H.
      apply bind_inv in H. destruct H as ([] & s1 & e1 & f1 & H1 & H & _). cbv beta in H.
      apply bind_inv in H. destruct H as (o & s2 & e2 & f2 & H2 & H & _).
      apply bind_inv in H. destruct H as (cs' & s3 & e3 & f3 & H3 & H & _). inversion H; subst. clear H.
      pose proof (moved_run E _ _ _ _ P1 Hf H1) as M1.
      destruct (call_moved _ _ _ _ _ _ P2 P3 (moved_fit _ _ _ _ M1) H2) as (ps & M2 & T2).
      destruct (IH _ _ _ _ Hp' (moved_fit _ _ _ _ M2) H3) as (parts & M3 & T3).
      exists (ps :: parts). cbn [offering_moments concat]. rewrite H1, H2. split; [|constructor; assumption].
      apply (moved_nil _ s1); [exact M1|]. apply moved_trans with s2; assumption.
  Qed.
  Lemma offering_fifo : forall ts i cs (s : st I) es, Forall proper ts -> offering E ts (st0 i) = Ok (cs, s, es) ->
    exists groups parts, spoken_data (offering_moments E ts (st0 i)) (map (@concat Z) groups) /\
      Forall (fun g => (1 <= length g <= 2)%nat) groups /\ Forall2 takes cs parts /\
      Forall2 says_point (concat parts) (concat groups ++ data_waiting s) /\ (length (data_waiting s) <= 7)%nat.
  Proof.
    intros ts i cs s es Hp H. destruct (offering_moved _ _ _ _ _ Hp (fit_0 E i) H) as (parts & (g & n & X1 & X2 & X3 & X4 & X5) & T).
    exists g, parts. split; [exact X1|]. split; [exact X2|]. split; [exact T|]. cbn [data_waiting] in X4. change (data_waiting (st0 i)) with (@nil (list Z)) in X4.
    cbn [List.app] in X4. rewrite <- X4. split; [exact X3|]. destruct X5 as [T5 _]. open_talk T5. exact Hdl.
  Qed.
End Calls.
