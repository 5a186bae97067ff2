(** Emergency stop of all locomotives, given by an interrupted station to an interrupted main loop *)
From Verif Require Import Prelude Address ZBits SpecCodec SpecTx TxProofs Tx RxState Rx CodecProofs RxLogic SpecRx
  RxBitProofs RxBitProofs2 RxBitProofs3 RxBitProofs4 RxBitProofs5 SpecConf SpecExec SpecCv SpecLayout LayoutProofs4 LayoutProofs5
  SpecLine LineProofs StationProofs TxPreempt SpecTxPreempt TxPreemptProofs
  Preempt SpecPreempt PreemptProofs PreemptProofs2 PreemptProofs4 SpecTorn TornProofs TornProofs2
  PreemptLoop SpecLoop LoopProofs SpecWhole WholeProofs SpecWhole2 WholeProofs2 SpecProgress ProgressProofs DeliverProofs SpecHalt.

Definition moves (x : SpecLayout.seen) : bool := match x with Told e => is_drive e | Access _ => false end.
Definition wheels (xs : list SpecLayout.seen) : list SpecLayout.seen := filter moves xs.

Lemma wheels_app : forall a b, wheels (a ++ b) = wheels a ++ wheels b.
Proof. intros. apply filter_app. Qed.
Lemma wheels_seen : forall es, wheels (seen_in es) = map Told (drives es).
Proof.
  induction es as [|e es IH]; [reflexivity|]. unfold seen_in in *. cbn [flat_map]. rewrite wheels_app, IH.
  destruct e; reflexivity.
Qed.

Section Obeyed.
  Variable ew : bool.

  Lemma perform_still : forall x v, v_service (fst (perform x v)) = v_service v /\ wheels (snd (perform x v)) = [].
  Proof.
    intros x v. unfold perform. destruct (permitted _ x); [|split; reflexivity]. cbn [fst snd with_cvs v_service].
    split; [reflexivity|]. destruct (v_service v && SpecLayout.agrees x _); reflexivity.
  Qed.
  Lemma performs_still : forall xs v, v_service (fst (perform_all xs v)) = v_service v /\ wheels (snd (perform_all xs v)) = [].
  Proof.
    induction xs as [|x xs IH]; intros v; [split; reflexivity|]. cbn [perform_all]. pose proof (perform_still x v) as [P1 P2].
    destruct (perform x v) as [v1 a]. cbn [fst snd] in *. specialize (IH v1). destruct (perform_all xs v1) as [v2 b]. cbn [fst snd] in *.
    destruct IH as [I1 I2]. split; [congruence|]. rewrite wheels_app, P2, I2. reflexivity.
  Qed.

  Lemma recipient_locos : forall c p n, recipient c p = Some n -> for_locos p.
  Proof.
    intros c p n H. unfold recipient in H. unfold for_locos. destruct (atyp (address_of p)); try discriminate H; cbn; auto.
  Qed.

  Lemma still_obey : forall p v, ~ sets_speed p -> wheels (snd (obey ew p v)) = [].
  Proof.
    intros p v H. unfold obey. destruct (v_service v).
    - unfold service. cbv zeta. repeat match goal with |- wheels (snd (if ?b then _ else _)) = [] => destruct b end; try reflexivity;
        try apply perform_still; try apply performs_still. cbn [snd]. destruct (v_page v =? _); reflexivity.
    - unfold operations. destruct (recipient (v_cvs v) p) as [n|] eqn:Er; [|reflexivity]. apply recipient_locos in Er.
      unfold sets_speed in H. destruct (body_of p) as [|b0 t]; [reflexivity|]. cbn [hd] in H.
      destruct (b0 <? 0x10); [destruct ((n =? 0) && (b0 =? 0)); reflexivity|]. destruct (b0 <? 0x20); [apply perform_still|].
      destruct (b0 <? 0xE0).
      + cbn [snd]. unfold driving. cbv zeta.
        destruct (Z.eqb_spec b0 0x3F) as [->|N1]; [exfalso; apply H; split; [exact Er|left; cbn; auto]|].
        destruct (Z.eqb_spec b0 0x3C) as [->|N2]; [exfalso; apply H; split; [exact Er|left; cbn; auto]|].
        destruct (b0 =? 0x3E); [destruct ew; reflexivity|].
        destruct (Z.ltb_spec b0 0x40) as [L1|L1]; [reflexivity|].
        destruct (Z.ltb_spec b0 0x80) as [L2|L2]; [exfalso; apply H; split; [exact Er|right; lia]|].
        destruct (b0 <? 0xC0); [unfold function_group_call, functions; cbv zeta; repeat match goal with |- context [if ?b then _ else _] => destruct b end; reflexivity|].
        destruct (b0 =? 0xDE); [reflexivity|]. destruct (b0 =? 0xDF); reflexivity.
      + destruct (negb (n =? 0) && _); [reflexivity|]. cbv zeta. apply performs_still.
  Qed.

  Lemma driving_obey : forall p v, ~ resets p -> v_service v = false -> v_service (fst (obey ew p v)) = false.
  Proof.
    intros p v H Hv. unfold obey. rewrite Hv. unfold operations. destruct (recipient (v_cvs v) p) as [n|] eqn:Er; [|exact Hv]. apply recipient_locos in Er.
    unfold resets in H. destruct (body_of p) as [|b0 t]; [exact Hv|]. cbn [hd] in H.
    destruct (b0 <? 0x10).
    { destruct (Z.eqb_spec b0 0) as [->|N]; [exfalso; apply H; split; [exact Er|reflexivity]|]. rewrite andb_false_r. exact Hv. }
    destruct (b0 <? 0x20); [rewrite (proj1 (perform_still _ v)); exact Hv|]. destruct (b0 <? 0xE0); [exact Hv|].
    destruct (negb (n =? 0) && _); [exact Hv|]. cbv zeta. rewrite (proj1 (performs_still _ _)). exact Hv.
  Qed.

  Lemma stop_obey : forall p v, stops_all p -> v_service v = false -> wheels (snd (obey ew p v)) = [Told (ESpeed 0 (-1))].
  Proof.
    intros p v (Hf & H0 & Hb) Hv. unfold obey. rewrite Hv. unfold operations.
    assert (Hr : recipient (v_cvs v) p = Some 0).
    { unfold recipient. unfold for_locos in Hf. rewrite H0. destruct (atyp (address_of p)); cbn in Hf; try reflexivity; exfalso; intuition congruence. }
    rewrite Hr. destruct Hb as [(b & t & Hbo & Hm)|(b & t & Hbo & Hr1 & Hm)]; rewrite Hbo.
    - cbn [Z.ltb Z.compare Pos.compare Pos.compare_cont snd]. unfold driving. cbv zeta. cbn [Z.eqb Pos.eqb hd].
      unfold speed126_calls. cbv zeta. rewrite Hm. reflexivity.
    - replace (b <? 0x10) with false by (symmetry; apply Z.ltb_ge; lia). replace (b <? 0x20) with false by (symmetry; apply Z.ltb_ge; lia).
      replace (b <? 0xE0) with true by (symmetry; apply Z.ltb_lt; lia). cbn [snd]. unfold driving. cbv zeta.
      replace (b =? 0x3F) with false by (symmetry; apply Z.eqb_neq; lia). replace (b =? 0x3C) with false by (symmetry; apply Z.eqb_neq; lia).
      replace (b =? 0x3E) with false by (symmetry; apply Z.eqb_neq; lia). replace (b <? 0x40) with false by (symmetry; apply Z.ltb_ge; lia).
      replace (b <? 0x80) with true by (symmetry; apply Z.ltb_lt; lia). unfold speed28_calls. cbv zeta. rewrite Hm. reflexivity.
  Qed.

  Lemma still_all : forall ps v, Forall (fun p => ~ sets_speed p) ps -> wheels (snd (obey_all ew ps v)) = [].
  Proof.
    induction ps as [|p ps IH]; intros v H; [reflexivity|]. inversion H as [|? ? Hp Hps]; subst. cbn [obey_all].
    pose proof (still_obey p v Hp) as K. destruct (obey ew p v) as [v1 a]. specialize (IH v1 Hps). destruct (obey_all ew ps v1) as [v2 b].
    cbn [snd] in *. rewrite wheels_app, K, IH. reflexivity.
  Qed.

  Lemma stop_stands : forall a p b v, Forall (fun p => ~ resets p) a -> stops_all p -> Forall (fun p => ~ sets_speed p) b -> v_service v = false ->
    exists w, wheels (snd (obey_all ew (a ++ p :: b) v)) = w ++ [Told (ESpeed 0 (-1))].
  Proof.
    induction a as [|q a IH]; intros p b v Ha Hp Hb Hv; cbn [List.app obey_all].
    - pose proof (stop_obey p v Hp Hv) as K. destruct (obey ew p v) as [v1 x]. pose proof (still_all b v1 Hb) as L.
      destruct (obey_all ew b v1) as [v2 y]. cbn [snd] in *. exists []. rewrite wheels_app, K, L. reflexivity.
    - inversion Ha as [|? ? Hq Ha']; subst. pose proof (driving_obey q v Hq Hv) as K. destruct (obey ew q v) as [v1 x]. cbn [fst] in K.
      destruct (IH p b v1 Ha' Hp Hb K) as (w & Hw). destruct (obey_all ew (a ++ p :: b) v1) as [v2 y]. cbn [snd] in *.
      exists (wheels x ++ w). rewrite wheels_app, Hw. apply app_assoc.
  Qed.
End Obeyed.

Lemma map_told_last : forall w es e, map Told es = w ++ [Told e] -> exists before, es = before ++ [e].
Proof.
  intros w es e H. destruct es as [|x es] using rev_ind; [destruct w; discriminate H|]. rewrite map_app in H. cbn [map] in H.
  apply app_inj_tail in H. destruct H as [_ H]. injection H as ->. exists es. reflexivity.
Qed.

Section Halt3.
  Context {I : Type} (E : Env I) (m : I -> Z -> Z) (able : access -> Prop) (Hk : keeps_cvs able E m).
  Hypothesis deaf : forall i d, e_hook E i (ETransmitBiDi d) = i.

  Theorem loop_halted : forall before w ts i outs s es, Forall starting before -> Forall (Forall handler) w -> Forall (fun t => Forall (Forall handler) (snd t)) ts ->
    mainloop E ((before, TInit, w) :: ts) (st0 i) = Ok (outs, s, es) -> loop_unassigned ((before, TInit, w) :: ts) outs listener0 ->
    let ps := loop_executed ((before, TInit, w) :: ts) outs listener0 in
    Forall (allowed able) (snd (obey_all (e_east_west E) ps (new_view (m i)))) ->
    forall a p b, ps = a ++ p :: b -> (forall q, In q a -> ~ resets q) -> stops_all p -> (forall q, In q b -> ~ sets_speed q) ->
    exists earlier, drives es = earlier ++ [ESpeed 0 (-1)].
  Proof.
    intros before w ts i outs s es Hb Hw Hts Hm Hu ps Hra a p b Hps Ha Hp Hbb.
    destruct (whole_layout E m able Hk deaf before w ts i outs s es Hb Hw Hts Hm Hu Hra) as (L1 & _). fold ps in L1.
    destruct (stop_stands (e_east_west E) a p b (new_view (m i)) (proj2 (Forall_forall _ _) Ha) Hp (proj2 (Forall_forall _ _) Hbb) eq_refl) as (x & Hx).
    rewrite <- Hps, <- L1, wheels_seen in Hx. exact (map_told_last _ _ _ Hx).
  Qed.

  Theorem station_halted : forall c xs s0 i, config_ok c -> (forall bs, In (XCall bs) xs -> packet_ok bs) ->
    tx_init c (tx_init_state 4) = Ok s0 ->
    exists outs g s1 ops h, xrun xs (SIdle, s0) = Ok (outs, (g, s1)) /\ placed xs (in_call g) ops /\
    flat_map SpecTx.call_of h = ops /\ ticks h = outs /\ history_ok c h /\
    forall before w ts1 ts2 rs1 s e1 rs2 s' e2, Forall starting before -> Forall (Forall handler) w ->
      Forall (fun t => Forall (Forall handler) (snd t)) (ts1 ++ ts2) ->
      let loop := (before, TInit, w) :: ts1 in
      mainloop E loop (st0 i) = Ok (rs1, s, e1) -> mainloop E ts2 s = Ok (rs2, s', e2) ->
      let made := loop_made (loop ++ ts2) (rs1 ++ rs2) in
      filter is_receive made = map OReceive (map fst outs) -> ~ In ODisable made -> loop_roomy (loop ++ ts2) (rs1 ++ rs2) listener0 ->
      (length (r_deque (rxs s)) <= turns ts2 rs2 (loop_listened loop rs1 listener0))%nat ->
      Forall (allowed able) (snd (obey_all (e_east_west E) (loop_executed (loop ++ ts2) (rs1 ++ rs2) listener0) (new_view (m i)))) ->
      forall sent1 bs sent2, finished c (None :: started h) (length outs) = sent1 ++ bs :: sent2 ->
      (length sent1 < length (finished c (None :: started h) (length (filter is_receive (loop_made loop rs1)))))%nat ->
      (forall q, In q sent1 -> ~ resets q) -> stops_all bs -> (forall q, In q sent2 -> ~ sets_speed q) ->
      exists earlier, drives (e1 ++ e2) = earlier ++ [ESpeed 0 (-1)].
  Proof.
    intros c xs s0 i Hc Hpk H0.
    destruct (station_line c xs s0 Hc Hpk H0) as (outs & g & s1 & ops & h & H1 & H2 & H3 & H4 & H5 & HL).
    exists outs, g, s1, ops, h. repeat (split; [assumption|]).
    intros before w ts1 ts2 rs1 s e1 rs2 s' e2 Hbe Hwi Hw loop Hr1 Hr2 made Hdos Hnd Hro Ht Hra sent1 bs sent2 Hfin Hlt Hres Hst Hsp.
    destruct (mainloop_app E _ _ _ _ _ _ _ _ _ Hr1 Hr2) as [Hr Hlen].
    assert (Hmade : made = loop_made loop rs1 ++ loop_made ts2 rs2) by (apply made_app; exact Hlen).
    assert (Hall : Forall (fun t : list op * task * list (list op) => Forall (Forall handler) (snd t)) (loop ++ ts2)) by (constructor; assumption).
    assert (Hintr : Forall (fun t : list op * task * list (list op) => interrupting (snd t)) (loop ++ ts2)).
    { eapply Forall_impl; [|exact Hall]. intros u. apply handlers_interrupting. }
    set (n1 := length (filter is_receive (loop_made loop rs1))) in *.
    assert (Hn : (n1 <= length outs)%nat).
    { apply (f_equal (@length _)) in Hdos. rewrite Hmade, filter_app, app_length, !map_length in Hdos. fold n1 in Hdos. lia. }
    assert (Hd1 : filter is_receive (loop_made loop rs1) = map OReceive (firstn n1 (map fst outs))).
    { rewrite (filter_firstn _ is_receive (loop_made loop rs1) (loop_made ts2 rs2)). fold n1. rewrite <- Hmade, Hdos, firstn_map. reflexivity. }
    assert (Hnd1 : ~ In ODisable (loop_made loop rs1)) by (intros X; apply Hnd; rewrite Hmade; apply in_or_app; left; exact X).
    destruct (HL n1 loop rs1 Hn Hd1 Hnd1 (roomy_app _ _ _ _ _ Hlen Hro)) as [_ Hh1].
    assert (Hdos' : filter is_receive made = map OReceive (firstn (length outs) (map fst outs)))
      by (rewrite firstn_all2; [exact Hdos|rewrite map_length; lia]).
    destruct (HL (length outs) (loop ++ ts2) (rs1 ++ rs2) (le_n _) Hdos' Hnd Hro) as [Hu Hh2].
    pose proof (proj2 (loop_fifo E loop i rs1 s e1 (proj1 (proj1 (Forall_app _ _ _) Hintr)) Hr1)) as Hq. rewrite Hh1 in Hq.
    pose proof (proj2 (loop_fifo E (loop ++ ts2) i (rs1 ++ rs2) s' (e1 ++ e2) Hintr Hr)) as Hq2. rewrite Hh2, Hfin in Hq2.
    destruct (loop_progress E loop i rs1 s e1 ts2 rs2 s' e2 Hall Hr1 Hr2) as (more & Hm).
    rewrite firstn_all2 in Hm by exact Ht.
    set (ps := loop_executed (loop ++ ts2) (rs1 ++ rs2) listener0) in *.
    assert (Hps : ps = finished c (None :: started h) n1 ++ more).
    { unfold ps. rewrite Hq, <- app_assoc, <- Hm. apply executed_app. exact Hlen. }
    assert (Hlt2 : (length sent1 < length ps)%nat) by (rewrite Hps, app_length; lia).
    assert (Hsplit : exists b, ps = sent1 ++ bs :: b /\ forall q, In q b -> In q sent2).
    { exists (skipn (S (length sent1)) ps).
      assert (F : firstn (S (length sent1)) ps = sent1 ++ [bs]).
      { apply (f_equal (firstn (S (length sent1)))) in Hq2. rewrite !firstn_app in Hq2.
        replace (S (length sent1) - length ps)%nat with 0%nat in Hq2 by lia. rewrite firstn_O, app_nil_r in Hq2. rewrite <- Hq2.
        replace (S (length sent1) - length sent1)%nat with 1%nat by lia. rewrite firstn_all2 by lia. reflexivity. }
      assert (S1 : ps = sent1 ++ bs :: skipn (S (length sent1)) ps).
      { rewrite <- (firstn_skipn (S (length sent1)) ps) at 1. rewrite F, <- app_assoc. reflexivity. }
      split; [exact S1|]. intros q Hin. rewrite S1 in Hq2. rewrite <- app_assoc in Hq2. cbn [List.app] in Hq2.
      apply app_inv_head in Hq2. injection Hq2 as ->. apply in_or_app. left. exact Hin. }
    destruct Hsplit as (b & Hb & Hin).
    exact (loop_halted before w (ts1 ++ ts2) i (rs1 ++ rs2) s' (e1 ++ e2) Hbe Hwi Hw Hr Hu Hra sent1 bs b Hb Hres Hst (fun q Hq' => Hsp q (Hin q Hq'))).
  Qed.
End Halt3.
