(** A station reads a CV over its own track *)
From Verif Require Import Prelude Address Instruction Datagram ZBits SpecCodec SpecTx TxProofs Tx RxState Rx CodecProofs CodecProofs2 RxLogic SpecRx RxBitProofs RxBitProofs4
  SpecExec SpecConf SpecCv SpecLogon SpecBidi BidiProofs3 SpecSafe SpecStation StationProofs2 SpecLayout SpecLayout2
  LayoutProofs LayoutProofs2 LayoutProofs3 LayoutProofs4 LayoutProofs7 LayoutProofs8 StationProofs4 AlikeProofs2 SpecDialog DialogProofs DialogProofs2 DialogProofs3 DialogProofs4
  ReadProofs SpecTraffic.
Local Ltac Zify.zify_post_hook ::= Z.div_mod_to_equations.

Lemma filter_cut : forall (A : Type) (f : A -> bool) (x : A) (b l a : list A), filter f l = a ++ x :: b ->
  exists l1 l2, l = l1 ++ x :: l2 /\ filter f l1 = a /\ filter f l2 = b.
Proof.
  intros A f x b. induction l as [|y l IH]; intros a H; [destruct a; discriminate H|]. cbn [filter] in H.
  destruct (f y) eqn:Ey.
  - destruct a as [|z a].
    + injection H as -> H. exists [], l. auto.
    + injection H as <- H. destruct (IH a H) as (l1 & l2 & -> & H1 & H2). exists (y :: l1), l2.
      split; [reflexivity|]. split; [|exact H2]. cbn [filter]. rewrite Ey, H1. reflexivity.
  - destruct (IH a H) as (l1 & l2 & -> & H1 & H2). exists (y :: l1), l2.
    split; [reflexivity|]. split; [|exact H2]. cbn [filter]. rewrite Ey, H1. reflexivity.
Qed.

Lemma heard_cut : forall os l a p b, heard os l = a ++ p :: b -> exists d1 o d2, os = d1 ++ o :: d2 /\ heard d1 l = a /\
  completed o (listen_all d1 l) = Some p /\ is_logon p = false.
Proof.
  induction os as [|o os IH]; intros l a p b H; [destruct a; discriminate H|]. cbn [heard] in H.
  assert (K : forall a', heard os (listen o l) = a' ++ p :: b -> heard [o] l ++ a' = a -> exists d1 o' d2, o :: os = d1 ++ o' :: d2 /\ heard d1 l = a /\
    completed o' (listen_all d1 l) = Some p /\ is_logon p = false).
  { intros a' K1 K2. destruct (IH _ _ _ _ K1) as (d1 & o' & d2 & -> & H1 & H2). exists (o :: d1), o', d2.
    split; [reflexivity|]. split; [|exact H2]. rewrite <- K2. cbn [heard]. rewrite app_nil_r. f_equal. exact H1. }
  cbn [heard] in K. rewrite app_nil_r in K.
  destruct (completed o l) as [bs|] eqn:Ec; [|apply (K a); [exact H|reflexivity]].
  destruct (is_logon bs) eqn:El; [apply (K a); [exact H|reflexivity]|]. cbn [List.app] in H.
  destruct a as [|z a].
  - injection H as -> H. exists [], o, os. auto.
  - injection H as <- H. apply (K a); [exact H|reflexivity].
Qed.

(** Orders that write nothing here *)
Definition writes_nothing (c : Z -> Z) (o : order) : Prop := is_write (snd o) = false \/ answers c (fst o) = false.

Lemma reading_accesses : forall again d, is_write d = false -> Forall (fun x => is_writing x = false) (wanted again d).
Proof. intros again d H. destruct d; try discriminate; cbn [wanted]; repeat constructor. Qed.

Lemma fold_reading : forall xs c, Forall (fun x => is_writing x = false) xs -> fold_left (fun c x => after x c) xs c = c.
Proof.
  induction xs as [|x xs IH]; intros c H; [reflexivity|]. cbn [fold_left]. pose proof (Forall_inv H) as H1.
  replace (after x c) with c by (destruct x; try discriminate H1; reflexivity). apply IH. exact (Forall_inv_tail H).
Qed.

Lemma reading_step : forall o c last (able : access -> Prop), writes_nothing c o ->
  fst (fst (carry_out o (c, last))) = c /\ Forall (allowed able) (snd (carry_out o (c, last))).
Proof.
  intros [n d] c last able H. unfold carry_out. destruct (answers c n) eqn:Ea; cbn [negb]; [|split; [reflexivity|constructor]].
  destruct H as [H|H]; cbn [fst snd] in H; [|congruence].
  destruct (on_cvs d); cbn [negb].
  2: { split; [reflexivity|]. cbn [snd]. apply Forall_forall. intros x Hx. apply in_map_iff in Hx. destruct Hx as (e & <- & _). exact Logic.I. }
  destruct (negb (n =? 0) && (n =? aval (consist_address c))); [split; [reflexivity|constructor]|].
  cbn [fst snd]. set (xs := filter _ _).
  assert (Hxs : Forall (fun x => is_writing x = false) xs).
  { apply Forall_forall. intros x Hx. apply filter_In in Hx. destruct Hx as [Hx _].
    pose proof (reading_accesses (same last n d) d H) as HF. rewrite Forall_forall in HF. apply HF. exact Hx. }
  split; [apply fold_reading; exact Hxs|]. apply Forall_forall. intros x Hx. apply in_map_iff in Hx. destruct Hx as (y & <- & Hy).
  rewrite Forall_forall in Hxs. cbn [allowed]. rewrite (Hxs y Hy). discriminate.
Qed.

Lemma reading_all : forall os c last (able : access -> Prop), Forall (writes_nothing c) os -> Forall (allowed able) (snd (carry_out_all os (c, last))).
Proof.
  induction os as [|o os IH]; intros c last able H; [constructor|]. cbn [carry_out_all].
  destruct (reading_step o c last able (Forall_inv H)) as [H1 H2]. destruct (carry_out o (c, last)) as [[c1 l1] a]. cbn [fst snd] in *. subst c1.
  specialize (IH c l1 able (Forall_inv_tail H)). destruct (carry_out_all os (c, l1)) as [m2 b]. cbn [snd] in *. apply Forall_app. auto.
Qed.

Lemma carry_app : forall a b mem, carry_out_all (a ++ b) mem =
  (fst (carry_out_all b (fst (carry_out_all a mem))), snd (carry_out_all a mem) ++ snd (carry_out_all b (fst (carry_out_all a mem)))).
Proof.
  induction a as [|o a IH]; intros b mem; cbn [List.app carry_out_all fst snd].
  - destruct (carry_out_all b mem); reflexivity.
  - destruct (carry_out o mem) as [m1 x]. rewrite IH. destruct (carry_out_all a m1) as [m2 y]. cbn [fst snd]. rewrite app_assoc. reflexivity.
Qed.

(** ** Packets in between *)

Lemma own_cv_frame : forall c n d, order_ok (n, d) -> 0 < n ->
  own_cv_packet c (frame n (payload d)) = has_number (own_address c) n && on_cvs d.
Proof.
  intros c n d [Hn Hd] Hp. cbn [fst snd] in *. pose proof (payload_byte d Hd) as Hb.
  unfold own_cv_packet. rewrite address_frame, body_frame by assumption. unfold wire_address. cbn [atyp aval].
  replace (n =? 0) with false by lia.
  assert (Hx : forall r, (224 <=? hd 0 (payload d ++ r)) && (hd 0 (payload d ++ r) <? 240) = on_cvs d).
  { intros r. destruct d; cbn [payload List.app hd on_cvs cmd_ok] in *; try reflexivity; try lia. }
  specialize (Hx [xor_all (wire_head n ++ payload d)]).
  destruct (n <=? 127); rewrite <- andb_assoc, Hx; reflexivity.
Qed.

Lemma own_cv_zero : forall c d, order_ok (0, d) -> own_cv_packet c (frame 0 (payload d)) = false.
Proof.
  intros c d [Hn Hd]. cbn [fst snd] in *. pose proof (payload_byte d Hd) as Hb.
  unfold own_cv_packet. rewrite address_frame by assumption. reflexivity.
Qed.

Lemma order_passes : forall ew o v, order_ok o -> v_service v = false -> (mine (v_cvs v) o = true -> on_cvs (snd o) = false) ->
  passes ew v (packet_of o).
Proof.
  intros ew [n d] v Ho Hv Hm. unfold mine in Hm. cbn [fst snd] in Hm. unfold packet_of, passes. cbn [fst snd].
  assert (Hn : answers (v_cvs v) n = true -> on_cvs d = false) by exact Hm.
  destruct (on_cvs d) eqn:Ed.
  - destruct (answers (v_cvs v) n) eqn:Ea; [discriminate (Hn eq_refl)|]. rewrite obey_cv by assumption. rewrite Ea. cbn [andb fst snd].
    split; [reflexivity|]. split; [intros x []|].
    pose proof Ho as [Hn0 _]. cbn [fst] in Hn0. destruct (Z.eq_dec n 0) as [->|]; [apply own_cv_zero; exact Ho|].
    rewrite own_cv_frame by (assumption || lia). unfold answers in Ea. destruct (has_number (own_address (v_cvs v)) n); [|reflexivity].
    rewrite orb_true_r in Ea. discriminate Ea.
  - rewrite obey_driving by assumption. cbn [fst snd]. split; [reflexivity|]. split.
    + intros x Hx. destruct (answers (v_cvs v) n); [|exact Hx]. apply in_map_iff in Hx. destruct Hx as (e & X & _). discriminate X.
    + pose proof Ho as [Hn0 _]. cbn [fst] in Hn0. destruct (Z.eq_dec n 0) as [->|]; [apply own_cv_zero; exact Ho|].
      rewrite own_cv_frame by (assumption || lia). rewrite Ed. apply andb_false_r.
Qed.

Lemma idle_passes : forall ew q v, v_service v = false -> not_idle q = false -> passes ew v q.
Proof.
  intros ew q v Hv Hq. unfold passes. rewrite idle_obey by assumption. cbn [fst snd]. split; [reflexivity|]. split; [intros x []|].
  unfold not_idle in Hq. destruct q as [|b q]; [discriminate Hq|]. cbn [nth] in Hq. assert (b = 255) by (destruct (Z.eqb_spec b 255); [assumption|discriminate]).
  subst b. reflexivity.
Qed.

Lemma orders_pass : forall ew os pss v, Forall order_ok os -> Forall2 packets_for os pss -> v_service v = false ->
  Forall (fun o => mine (v_cvs v) o = true -> on_cvs (snd o) = false) os -> Forall (passes ew v) (concat pss).
Proof.
  intros ew os pss v Ho Hp Hv Hm. induction Hp as [|o ps os pss Hop Hp IH]; [constructor|]. cbn [concat]. apply Forall_app. split.
  - rewrite (packets_of_order o ps (Forall_inv Ho) Hop). apply Forall_forall. intros q Hq. apply repeat_spec in Hq. subst q.
    apply order_passes; [exact (Forall_inv Ho)|exact Hv|exact (Forall_inv Hm)].
  - apply IH; [exact (Forall_inv_tail Ho)|exact (Forall_inv_tail Hm)].
Qed.

Lemma asks_frame : forall n d, order_ok (n, d) -> on_cvs d = true -> asks (frame n (payload d)) = asked d.
Proof.
  intros n d [Hn Hd] Hc. cbn [fst snd] in *. pose proof (payload_byte d Hd) as Hb. unfold asks. rewrite body_frame by assumption.
  destruct (request_payload d Hd Hc) as (b0 & b1 & b2 & E & R & Q). rewrite <- Q, E. cbn [List.app hd nth].
  replace (224 <=? b0) with true by lia. replace (b0 <? 240) with true by lia. reflexivity.
Qed.

Lemma reads_one : forall d c r, value_read d c = Some r -> on_cvs d = true /\ is_write d = false /\
  exists x, asked d = [x] /\ is_writing x = false /\ content x c = r.
Proof.
  intros d c r H. destruct d; try discriminate H; injection H as <-; (split; [reflexivity|]); (split; [reflexivity|]);
    eexists; (split; [reflexivity|]); split; reflexivity.
Qed.

Lemma reader_nothing : forall c n d os2, is_write d = false -> Forall (fun o => mine c o = true -> on_cvs (snd o) = false) os2 ->
  Forall (writes_nothing c) ((n, d) :: os2 ++ [(n, d)]).
Proof.
  intros c n d os2 Hd H. constructor; [left; exact Hd|]. apply Forall_app. split; [|constructor; [left; exact Hd|constructor]].
  eapply Forall_impl; [|exact H]. intros [n' d'] Ho. unfold mine in Ho. unfold writes_nothing. cbn [fst snd] in *.
  destruct (answers c n'); [|right; reflexivity]. left. specialize (Ho eq_refl). destruct d'; try reflexivity; discriminate Ho.
Qed.

Lemma one_packet : forall n d ps, order_ok (n, d) -> packets_for (n, d) ps -> is_write d = false -> ps = [packet_of (n, d)].
Proof. intros n d ps Ho Hp Hd. rewrite (packets_of_order _ _ Ho Hp). cbn [snd]. rewrite Hd. reflexivity. Qed.

Section Station.
  Context {I : Type} (E : Env I) (m : I -> Z -> Z) (able : access -> Prop) (time : I -> Z)
    (Hk : keeps_cvs able E m) (HC : clock E time).
  Implicit Types s : st I.

  (** A CV is read by two orders. Others in between are not for the CVs of this decoder. *)
  Theorem station_reads : forall c os1 os2 n d pss ks k i r, 0 <= time i -> m i 0 < 128 -> config_ok c ->
    let os := os1 ++ (n, d) :: os2 ++ [(n, d)] in
    Forall order_ok os -> Forall2 packets_for os pss -> length ks = length os -> Forall (fun j => (782 < j)%nat) ks -> (782 < k)%nat ->
    Forall (allowed (fun x => able x /\ sensible x)) (snd (carry_out_all os1 (m i, None))) ->
    let cvs := fst (fst (carry_out_all os1 (m i, None))) in
    value_read d cvs = Some r -> 0 < n -> has_number (own_address cvs) n = true -> n <> aval (consist_address cvs) ->
    cvs_locked (switches cvs) = false -> data_channel cvs = true ->
    Forall (fun o => mine cvs o = true -> on_cvs (snd o) = false) os2 ->
    exists xs tx, tx_run (TInit c :: flat_map calls (combine pss ks) ++ repeat TTransmit k) (tx_init_state 4)
                  = Ok ((None, []) :: xs, tx) /\
    forall dos, filter is_receive dos = map OReceive (map fst (intervals xs)) -> ~ In ODisable dos ->
      executes_every 76 dos -> on_time dos ->
      exists d1 d2 s es s' dg, dos = d1 ++ d2 /\ filter not_idle (heard d1 listener0) = concat pss /\
        l_fresh (listen_all d1 listener0) = true /\ run E (OInit :: d1) (st0 i) = Ok (tt, s, es) /\
        biDiChannel2 E s = Ok (tt, s', [ETransmitBiDi dg]) /\ make_data (decode_datagram dg) = Ok r.
  Proof.
    intros c os1 os2 n d pss ks k i r Hi H1 Hc os Ho Hp Hl Hks Hn Hal cvs Hv Hn0 Hown Hcon Hlk Hch Hos2.
    destruct (reads_one _ _ _ Hv) as (Hcv & Hnw & x & Hx & Hxw & Hxr).
    destruct (orders_tracked c os pss ks k Hc Ho Hp Hl Hks Hn) as (h & xs & tx & Htx & Hxs & Hh & Hpk & Hall).
    exists xs, tx. split; [exact Htx|]. intros dos Hdos Hnd Hex Hon. rewrite Hxs in Hdos.
    assert (Ht : tracks (m i, None) (new_view (m i))) by (split; [|split]; reflexivity).
    destruct (orders_obeyed (e_east_west E) os pss _ _ Ho Hp Ht) as (Hcalm & _ & Hsnd).
    destruct (short_obeyed E m able time Hk HC c h i dos Hi H1 Hc Hh Hpk Hdos Hnd Hex Hon) as (s & es & Hrun & Hlo & _ & Hfin & Hle).
    { intros done left Hf Hle. specialize (Hall done left Hf Hle).
      rewrite without_idle by (reflexivity || (rewrite Hall; exact Hcalm)). rewrite Hall, Hsnd. unfold os. rewrite carry_app. cbn [snd].
      apply Forall_app. split; [exact Hal|]. destruct (carry_out_all os1 (m i, None)) as [[c1 l1] e1] eqn:E1.
      unfold cvs in *. cbn [fst] in *. apply reading_all. apply reader_nothing; assumption. }
    pose proof (run_refines E (OInit :: dos) listener0 (st0 i) s es (Rl0 i) Hrun) as HR.
    change (listen_all (OInit :: dos) listener0) with (listen_all dos listener0) in HR.
    pose proof (log_queue dos listener0) as Hlog. cbn [listener0 l_queue List.app] in Hlog.
    assert (Hd : r_deque (rxs s) = l_queue (listen_all dos listener0)) by apply HR.
    rewrite Hd, <- Hlog in Hfin.
    assert (Hfil : filter not_idle (heard dos listener0) = concat pss).
    { apply (Hall _ []); [rewrite app_nil_r; exact Hfin|cbn [length]; lia]. }
    (* the packets of the orders *)
    unfold os in Ho, Hp. apply Forall_app in Ho. destruct Ho as [Ho1 Ho']. pose proof (Forall_inv Ho') as Hod.
    apply Forall_inv_tail, Forall_app in Ho'. destruct Ho' as [Ho2 _].
    apply Forall2_app_inv_l in Hp. destruct Hp as (pss1 & pss' & Hp1 & Hp' & ->).
    inversion Hp' as [|? ps ? pss'' Hpd Hp'' Ea Eb]; subst. clear Hp'.
    apply Forall2_app_inv_l in Hp''. destruct Hp'' as (pss2 & pss3 & Hp2 & Hp3 & ->).
    inversion Hp3 as [|? ps' ? pss4 Hpd' Hp4 Ea Eb]; subst. clear Hp3. inversion Hp4; subst. clear Hp4.
    pose proof (one_packet n d ps Hod Hpd Hnw) as ->. pose proof (one_packet n d ps' Hod Hpd' Hnw) as ->.
    set (p := packet_of (n, d)) in *.
    assert (Hcat : concat (pss1 ++ [p] :: pss2 ++ [[p]]) = concat pss1 ++ p :: concat pss2 ++ [p]).
    { rewrite concat_app. cbn [concat]. rewrite concat_app. cbn [concat List.app]. reflexivity. }
    rewrite Hcat in *.
    destruct (filter_cut _ not_idle p _ _ _ Hfil) as (hs & rest & Hheard & Hf1 & Hf2).
    destruct (filter_cut _ not_idle p _ _ _ Hf2) as (qs & rest2 & -> & Hf3 & Hf4).
    assert (Hpi : not_idle p = true).
    { assert (In p (filter not_idle (heard dos listener0))) as X by (rewrite Hfil; apply in_or_app; right; left; reflexivity).
      apply filter_In in X. apply X. }
    change (hs ++ p :: qs ++ p :: rest2) with (hs ++ (p :: qs) ++ p :: rest2) in Hheard. rewrite app_assoc in Hheard.
    destruct (heard_cut _ _ _ _ _ Hheard) as (a & o & b & -> & Hha & Hco & Hlg).
    assert (Hrec : exists t, o = OReceive t) by (destruct o; try discriminate Hco; eexists; reflexivity).
    destruct Hrec as [t ->].
    change (a ++ OReceive t :: b) with (a ++ [OReceive t] ++ b) in *. rewrite app_assoc in *.
    assert (Hpre : executes_every 76 (a ++ [OReceive t])).
    { intros u w y Eu Hw. apply (Hex u w (y ++ b)); [rewrite Eu, <- !app_assoc; reflexivity|exact Hw]. }
    assert (Hqa : l_queue (listen_all a listener0) = []).
    { destruct (prompt_enough _ Hpre) as [_ Q]. rewrite listen_all_app in Q.
      change (listen_all [OReceive t] (listen_all a listener0)) with (listen (OReceive t) (listen_all a listener0)) in Q.
      destruct (listen_queue (OReceive t) (listen_all a listener0)) as [[X _]|(bs & X1 & X2 & X3 & _)].
      - rewrite Hco, Hlg in X. discriminate X.
      - rewrite X3, app_length in Q. cbn [length] in Q. destruct (l_queue (listen_all a listener0)); [reflexivity|cbn [length] in Q; lia]. }
    destruct (run_app E (OInit :: a ++ [OReceive t]) b (st0 i) s es Hrun) as (s1 & e1 & e2 & Hr1 & _ & _).
    rewrite logons_app in Hlo. apply app_eq_nil in Hlo. destruct Hlo as [Hlo _].
    pose proof (on_time_app _ _ Hon) as Hon1. pose proof (on_time_app _ _ Hon1) as Hon2.
    (* before the first of both *)
    destruct (orders_obeyed (e_east_west E) os1 pss1 _ _ Ho1 Hp1 Ht) as (Hcalm1 & (T1 & T2 & _) & Hsnd1).
    assert (Hhs : obey_all (e_east_west E) hs (new_view (m i)) = obey_all (e_east_west E) (concat pss1) (new_view (m i))).
    { rewrite <- Hf1. apply without_idle; [reflexivity|rewrite Hf1; exact Hcalm1]. }
    rewrite <- Hhs in T1, T2, Hsnd1. fold cvs in T2. set (v := fst (obey_all (e_east_west E) hs (new_view (m i)))) in *.
    assert (Hps : Forall (passes (e_east_west E) (count p v)) qs).
    { assert (Hcp : v_service (count p v) = false) by exact T1.
      assert (Hpp : Forall (passes (e_east_west E) (count p v)) (filter not_idle qs)).
      { rewrite Hf3. apply (orders_pass _ os2); [assumption|assumption|exact Hcp|]. change (v_cvs (count p v)) with (v_cvs v). rewrite T2. exact Hos2. }
      apply Forall_forall. intros q Hq. destruct (not_idle q) eqn:Eq; [|apply idle_passes; assumption].
      rewrite Forall_forall in Hpp. apply Hpp. apply filter_In. auto. }
    assert (Haval : aval (address_of p) = n).
    { unfold p, packet_of. cbn [fst snd]. destruct Hod as [X1 X2]. cbn [fst snd] in *. rewrite address_frame by (assumption || apply payload_byte; assumption).
      unfold wire_address. destruct (n =? 0); reflexivity. }
    destruct (read_answered_on E m able Hk a t i s1 e1 hs p qs x Hr1 Hlo Hon2) as (s' & dg & B1 & B2 & _).
    - rewrite Hsnd1. eapply Forall_impl; [|exact Hal]. intros [e|y] H; [exact Logic.I|]. intros Hw. apply (H Hw).
    - exact Hha.
    - exact Hqa.
    - exact Hco.
    - exact T1.
    - fold v. rewrite T2. unfold p, packet_of. cbn [fst snd]. rewrite own_cv_frame, Hown, Hcv by assumption. reflexivity.
    - unfold p, packet_of. cbn [fst snd]. rewrite asks_frame by assumption. exact Hx.
    - exact Hxw.
    - fold v. rewrite T2. exact Hlk.
    - fold v. rewrite T2, Haval. right. exact Hcon.
    - fold v. rewrite T2. exact Hch.
    - exact Hps.
    - exists (a ++ [OReceive t]), b, s1, e1, s', dg. split; [reflexivity|]. split.
      + rewrite heard_app, Hha. cbn [heard]. rewrite Hco, Hlg. cbn [List.app]. rewrite <- app_assoc, filter_app, Hf1. cbn [List.app filter].
        rewrite Hpi, filter_app, Hf3. cbn [filter]. rewrite Hpi. reflexivity.
      + split; [rewrite listen_all_app; exact (fresh_completed _ _ _ Hco)|]. split; [exact Hr1|]. split; [exact B1|].
        fold v in B2. rewrite T2 in B2. exact B2.
  Qed.
End Station.
