(** Answers to logon packets in the cutouts behind them *)
From Verif Require Import Prelude Address Backoff Instruction Packets Datagram ZBits SpecCodec RxState Rx CodecProofs CodecProofs2 RxLogic SpecRx RxBitProofs
  SpecExec ExecProofs SpecConf ConfProofs ConfProofs2 SpecCv CvProofs CvProofs2 RxInv SaneProofs SpecLogon LogonProofs LogonProofs2 LogonProofs3 LogonProofs4
  SpecBidi BidiProofs BidiProofs2 BidiProofs3 BidiProofs4 BidiProofs7 SpecLayout LayoutProofs SpecNode NodeProofs NodeProofs5 NodeProofs6 NodeProofs7 SpecSession.

Section Session.
  Context {I : Type} (E : Env I) (m : I -> Z -> Z) (able : access -> Prop) (Hk : keeps_cvs able E m).
  Implicit Types s : st I.
  Notation Sim := (NodeProofs.Sim m).

  Definition replied s (a : option Z) : Prop :=
    match a with Some v => answers_with s v | None => logon_answers s = [] end.

  Lemma group_spec : forall k, byte k -> group_no (group_of k) = k mod 4.
  Proof.
    intros k Hb. apply Z.eqb_eq. exact (sweep8 (fun k => group_no (group_of k) =? k mod 4) ltac:(vm_compute; reflexivity) k Hb).
  Qed.

  Lemma handler_reply : forall n s r b s' es, sane (rxs s) -> Forall byte r -> Sim n s -> logon_answers s = [] -> intact (254 :: r) = true ->
    executeAutomaticLogon E (Addr 254 ATLogon false) r s = Ok (b, s', es) ->
    replied s' (reply (bo_count (SpecLogon.pause s) =? 0) (254 :: r) n).
  Proof.
    intros n s r b s' es Hs Hb HS Hno Hin H. unfold executeAutomaticLogon in H. cbn [aval] in H. change (negb (254 =? 254)) with false in H. cbn iota in H.
    apply bind_inv in H. destruct H as (k & s1 & e1 & e2 & H1 & H & ->).
    assert (N : forall i x s1 e s, at_ r i s = Ok (x, s1, e) -> nth i r 0 = x /\ s1 = s /\ e = [] /\ byte x).
    { clear - Hb. intros i x s1 e s H. unfold at_ in H. destruct (nth_error r i) as [y|] eqn:En; [|discriminate]. unfold ret in H.
      assert (y = x) as -> by congruence. split; [apply nth_at; exact En|]. split; [congruence|]. split; [congruence|].
      exact (proj1 (Forall_forall byte r) Hb x (nth_error_In _ _ En)). }
    destruct (N _ _ _ _ _ H1) as (Nk & -> & -> & Bk). clear H1.
    apply bind_inv in H. destruct H as ([] & s2 & e3 & e4 & H & H2 & ->). unfold ret in H2.
    assert (s' = s2) as -> by congruence. assert (e4 = []) as -> by congruence. clear H2.
    unfold reply. cbv zeta. rewrite Hin. cbn [negb orb]. change (nth 1 (254 :: r) 0) with (nth 0 r 0). rewrite Nk.
    rewrite !nibble_at in H by (cbn [In]; auto). unfold byte in Bk.
    assert (L : forall A (x : res A) (f : A -> M (I := I) unit) s, bind (lift x) f s = Ok (tt, s2, e3) -> exists a, x = Ok a /\ f a s = Ok (tt, s2, e3)).
    { intros A [a|u] f s0 Hx; [|discriminate Hx]. rewrite bind_lift in Hx. eauto. }
    change (skipn 3 (254 :: r)) with (skipn 2 r).
    assert (D : forall d, subspan4 r 2 = Ok d -> d = firstn 4 (skipn 2 r)).
    { intros d Hd. unfold subspan4 in Hd. destruct (2 + 4 <=? length r)%nat; [|discriminate]. congruence. }
    destruct (sim_fields m n s HS) as (F1 & F2 & F3 & F4 & F5 & F6).
    assert (Done : ret tt s = Ok (tt, s2, e3) -> logon_answers s2 = []) by (intros Hx; unfold ret in Hx; assert (s2 = s) as -> by congruence; exact Hno).
    destruct (Z.ltb_spec k 208).
    { replace ((208 <=? k) && (k <? 208 + 16)) with false in H by (symmetry; lia).
      replace ((224 <=? k) && (k <? 224 + 16)) with false in H by (symmetry; lia).
      replace ((240 <=? k) && (k <? 240 + 16)) with false in H by (symmetry; lia).
      rewrite orb_true_r. exact (Done H). }
    rewrite orb_false_r.
    destruct (Z.ltb_spec k 224).
    { replace ((208 <=? k) && (k <? 208 + 16)) with true in H by (symmetry; lia).
      destruct (L _ _ _ _ H) as (d & Hd & Hx). rewrite <- (D d Hd). clear L D.
      destruct (select_run s d Hs) as (cs & Hcs & Hr). rewrite Hr, F1, F2, F4 in Hx. clear Hr. rewrite Hno in Hx. rewrite same_id_eqb.
      destruct (logon_enabled (n_conf n)); cbn [negb andb] in *; [|unfold replied; assert (s2 = s) as -> by congruence; exact Hno].
      rewrite andb_comm. destruct (negb (n_assigned n) && list_eqb d (did (n_conf n))); [|unfold replied; assert (s2 = s) as -> by congruence; exact Hno].
      match type of Hx with Ok (_, ?x, _) = _ => assert (s2 = x) as -> by congruence end. exists cs. split; [reflexivity|].
      destruct HS as (_ & HS). unfold nregs, registers in HS. assert (primary (r_addrs (rxs s)) = n_own n) as <- by congruence. exact Hcs. }
    replace ((208 <=? k) && (k <? 208 + 16)) with false in H by (symmetry; lia).
    destruct (Z.ltb_spec k 240).
    { replace ((224 <=? k) && (k <? 224 + 16)) with true in H by (symmetry; lia).
      destruct (L _ _ _ _ H) as (d & Hd & Hx). rewrite <- (D d Hd).
      apply bind_inv in Hx. destruct Hx as (a & s1 & e1 & e2 & Hat & Hx & ->).
      destruct (N _ _ _ _ _ Hat) as (Na & -> & -> & Ba). clear Hat. cbn [List.app] in *.
      change (nth 7 (254 :: r) 0) with (nth 6 r 0). change (nth 8 (254 :: r) 0) with (nth 7 r 0). change (nth 9 (254 :: r) 0) with (nth 8 r 0).
      rewrite Na. cbv zeta in Hx.
      replace (Z.land a 0x3F) with (a mod 64) in Hx by (change 0x3F with (Z.ones 6); rewrite Z.land_ones by lia; reflexivity).
      assert (As : forall A ow, logonAssign d A ow s = Ok (tt, s2, e2) ->
        replied s2 (if negb (logon_enabled (n_conf n)) then None else if same_id d (did (n_conf n)) then Some assign_answer else None)).
      { intros A ow HA. destruct (assign_run s d A ow) as (cs & Hcs & Hr). rewrite Hr, F1, F2, Hno in HA. rewrite same_id_eqb.
        destruct (logon_enabled (n_conf n)); cbn [negb andb] in *; [|unfold replied; assert (s2 = s) as -> by congruence; exact Hno].
        destruct (list_eqb d (did (n_conf n))); [|unfold replied; assert (s2 = s) as -> by congruence; exact Hno].
        match type of HA with Ok (_, ?x, _) = _ => assert (s2 = x) as -> by congruence end. exists cs. split; [reflexivity|exact Hcs]. }
      unfold understood. cbv zeta. destruct (Z.ltb_spec (a mod 64) 40) as [H3|H3].
      - destruct (L _ _ _ _ Hx) as (A & HA & Hy). exact (As _ _ Hy).
      - replace (a mod 64 <? 0x28) with false in Hx by (symmetry; lia). destruct (Z.eqb_spec (a mod 64) 56) as [H4|H4].
        + rewrite H4 in Hx. change (56 <? 0x38) with false in Hx. change (56 <? 0x39) with true in Hx. cbn iota in Hx.
          destruct (L _ _ _ _ Hx) as (A & HA & Hy). exact (As _ _ Hy).
        + destruct (negb (logon_enabled (n_conf n))).
          * destruct (a mod 64 <? 0x38) eqn:E3; [exact (Done Hx)|].
            replace (a mod 64 <? 0x39) with false in Hx by (symmetry; lia). exact (Done Hx).
          * destruct (a mod 64 <? 0x38) eqn:E3; [exact (Done Hx)|].
            replace (a mod 64 <? 0x39) with false in Hx by (symmetry; lia). exact (Done Hx). }
    replace ((224 <=? k) && (k <? 224 + 16)) with false in H by (symmetry; lia).
    replace ((240 <=? k) && (k <? 240 + 16)) with true in H by (symmetry; lia).
    destruct (L _ _ _ _ H) as (cid & Hc & Hx).
    apply bind_inv in Hx. destruct Hx as (sid & s1 & e1 & e2 & Hat & Hx & ->).
    destruct (N _ _ _ _ _ Hat) as (Ns & -> & -> & Bs). clear Hat. cbn [List.app] in *.
    change (nth 2 (254 :: r) 0) with (nth 1 r 0). change (nth 3 (254 :: r) 0) with (nth 2 r 0). change (nth 4 (254 :: r) 0) with (nth 3 r 0).
    rewrite Ns. assert (256 * nth 1 r 0 + nth 2 r 0 = cid) as ->.
    { clear - Hc Hb. destruct r as [|r0 [|r1 [|r2 r]]]; try discriminate. cbn [skipn nth] in *. cbn [data2uint16] in Hc.
      inversion Hb as [|? ? _ Hb1]; subst. inversion Hb1 as [|? ? B1 Hb2]; subst. inversion Hb2 as [|? ? B2 _]; subst. unfold byte in *.
      assert (cid = u16 (Z.lor (Z.shiftl r1 8) r2)) as -> by congruence.
      rewrite Z.shiftl_mul_pow2 by lia. rewrite lor_add by lia. unfold u16. change (2 ^ 8) with 256. rewrite Z.mod_small; lia. }
    destruct (enable_run E s (group_of k) cid sid Hs Bs) as (cs & Hcs & Hr). rewrite Hr in Hx. clear Hr. rewrite F1, F3 in Hx.
    unfold recognized_b in Hx. rewrite F5, F6 in Hx. rewrite F2 in Hcs.
    destruct (logon_enabled (n_conf n)); cbn [negb orb] in *; [|unfold replied; assert (s2 = s) as -> by congruence; exact Hno].
    destruct (n_selected n); cbn [orb]; [unfold replied; assert (s2 = s) as -> by congruence; exact Hno|].
    unfold recognizes. destruct ((cid =? fst (n_known n)) && (0 <=? sid - snd (n_known n)) && (sid - snd (n_known n) <=? 4)); cbn [orb].
    { destruct (e_readCv E (app s) 65299) as [x i1]. destruct (e_readCv E i1 65300) as [y i2].
      match type of Hx with Ok (_, ?x, _) = _ => assert (s2 = x) as -> by congruence end. exact Hno. }
    assert (G : group_no (group_of k) = k mod 4) by (apply group_spec; unfold byte; lia).
    set (s0 := with_rx _ s) in Hx. assert (logon_deque (r_logon (rxs s0)) = []) as D0.
    { subst s0. unfold with_rx. destruct (cid =? fst (n_known n)); exact Hno. }
    assert (logon_backoff (r_logon (rxs s0)) = SpecLogon.pause s) as P0 by (subst s0; unfold with_rx; destruct (cid =? fst (n_known n)); reflexivity).
    rewrite <- G. unfold answering in Hx. rewrite D0, P0 in Hx. clearbody s0.
    assert (K : forall b, (if bo_count b =? 0 then let '(n, i) := e_rand E (app s0) in
        Ok (tt, Mk_st (set_logon_deque [cs] (set_logon_backoff (Mk_backoff (Z.min (bo_range b + 1) 3) (n mod (8 * 2 ^ bo_range b))) (rxs s0))) i (pending s0), [])
        else Ok (tt, with_rx (set_logon_backoff (Mk_backoff (bo_range b) (bo_count b - 1))) s0, [])) = Ok (tt, s2, e2) ->
        replied s2 (if bo_count b =? 0 then Some (enable_answer (did (n_conf n))) else None)).
    { intros bb Hy. destruct (bo_count bb =? 0).
      - destruct (e_rand E (app s0)) as [j i]. match type of Hy with Ok (_, ?x, _) = _ => assert (s2 = x) as -> by congruence end. exists cs. split; [reflexivity|exact Hcs].
      - match type of Hy with Ok (_, ?x, _) = _ => assert (s2 = x) as -> by congruence end. exact D0. }
    destruct (group_of k); cbn [group_no]; cbn [Z.eqb orb Pos.eqb]; cbv zeta in Hx; cbn [pause_for] in Hx.
    - exact (K _ Hx).
    - exact (K _ Hx).
    - assert (s2 = s0) as -> by congruence. exact D0.
    - exact (K (Mk_backoff 0 0) Hx).
  Qed.

  Lemma receive_reply : forall i os es0 n s t p s' es, run E os (st0 i) = Ok (tt, s, es0) -> Sim n s -> served os ->
    completed (OReceive t) (listen_all os listener0) = Some p -> is_logon p = true -> receive E t s = Ok (tt, s', es) ->
    replied s' (reply (bo_count (SpecLogon.pause s) =? 0) p n) /\ atyp (received (r_addrs (rxs s'))) = ATLogon.
  Proof.
    intros i os es0 n s t p s' es Hrun HS Hserved Ec Eg H. pose proof (served_empty E _ _ _ _ Hrun Hserved) as Hno.
    assert (hears E s t p) as Hh by (exists i, os, es0; auto).
    destruct (logon_receive E s t p Hh Eg) as (Hs & Hb & Hl & f & Hf & Hr). rewrite Hr in H. clear Hr.
    destruct (is_logon_254 _ Eg) as (r & Hp & Ha).
    assert (NodeProofs.Sim m n (entered f p s)) as HSe by (apply (Sim_kept m n s); [reflexivity|reflexivity|exact HS]).
    destruct (undamaged_b p) eqn:Eu.
    - rewrite Ha in H. destruct (executeAutomaticLogon E (Addr 254 ATLogon false) (tl p) (entered f p s)) as [[[b s2] e2]|u] eqn:Ex; [|discriminate H].
      cbn [closing] in H. match type of H with Ok (_, ?x, _) = _ => assert (s' = x) as -> by congruence end.
      assert (Forall byte (tl p)) as Hb1 by (rewrite Hp in *; inversion Hb; assumption).
      assert (254 :: tl p = p) as Ept by (rewrite Hp; reflexivity).
      assert (intact (254 :: tl p) = true) as Hin by (rewrite Ept; exact Eu).
      pose proof (handler_reply n _ (tl p) b s2 e2 (entered_sane f p s Hf Hb Hs) Hb1 HSe Hno Hin Ex) as K. rewrite Ept in K.
      split; [exact K|]. assert (keeps (fun r => received (r_addrs r)) (executeAutomaticLogon E (Addr 254 ATLogon false) (tl p))) as Kk by keeps_tac.
      pose proof (Kk _ _ _ _ Ex) as Kr. cbn beta in Kr. unfold with_fsm. cbn [rxs r_addrs]. 
      match goal with |- atyp ?x = _ => assert (x = received (r_addrs (rxs s2))) as -> by reflexivity end. rewrite Kr.
      change (received (r_addrs (rxs (entered f p s)))) with (address_of p). rewrite Ha. reflexivity.
    - cbn [closing] in H. match type of H with Ok (_, ?x, _) = _ => assert (s' = x) as -> by congruence end. split.
      + assert (reply (bo_count (SpecLogon.pause s) =? 0) p n = None) as -> by (unfold reply; change (intact p) with (undamaged_b p); rewrite Eu; reflexivity). exact Hno.
      + match goal with |- atyp ?x = _ => assert (x = address_of p) as -> by reflexivity end. rewrite Ha. reflexivity.
  Qed.

  Lemma neutral_run : forall os s s' es, Forall neutral os -> run E os s = Ok (tt, s', es) ->
    logon_view (rxs s') = logon_view (rxs s) /\ SpecBidi.sent es = [].
  Proof.
    induction os as [|o os IH]; intros s s' es Hn H; cbn [run] in H.
    - unfold ret in H. assert (s' = s) as -> by congruence. assert (es = []) as -> by congruence. auto.
    - inversion Hn as [|? ? (N1 & N2 & N3) Hn']; subst. apply bind_inv in H. destruct H as (b & s1 & e1 & e2 & H1 & H2 & ->).
      destruct (IH _ _ _ Hn' H2) as [K1 K2]. pose proof (mute_step E o _ _ _ _ H1 N2 N3) as K3.
      pose proof (view_step E o N1 N3 _ _ _ _ H1) as K4. split; [congruence|]. unfold SpecBidi.sent in *. rewrite flat_map_app, K2, K3. reflexivity.
  Qed.

  Lemma sent_transmit : forall ds, SpecBidi.sent (map ETransmitBiDi ds) = ds.
  Proof. induction ds as [|d ds IH]; [reflexivity|]. cbn. f_equal. exact IH. Qed.

  Lemma cutout_reply : forall os t p i mid mid' s es,
    run E (os ++ OReceive t :: mid ++ OBiDi1 :: mid' ++ [OBiDi2]) (st0 i) = Ok (tt, s, es) -> served os ->
    completed (OReceive t) (listen_all os listener0) = Some p -> is_logon p = true -> Forall neutral mid -> Forall neutral mid' ->
    let x := attend_all (e_east_west E) (inputs os listener0) (new_node (m i)) in
    Forall (allowed able) (snd x) ->
    exists s0 e0 e1, run E os (st0 i) = Ok (tt, s0, e0) /\ es = e0 ++ e1 /\
      in_both_channels (reply (bo_count (SpecLogon.pause s0) =? 0) p (fst x)) (SpecBidi.sent e1) /\ logon_answers s = [].
  Proof.
    intros os t p i mid mid' s es H Hserved Hc Hg Hm1 Hm2 x Hal.
    change (os ++ OReceive t :: mid ++ OBiDi1 :: mid' ++ [OBiDi2]) with (os ++ [OReceive t] ++ mid ++ [OBiDi1] ++ mid' ++ [OBiDi2]) in H.
    pose proof H as H0. apply run_app in H. destruct H as (s0 & e0 & e1 & R0 & H & ->). exists s0, e0, e1.
    split; [exact R0|]. split; [reflexivity|].
    destruct (node_run E m able Hk _ _ _ _ R0 Hal) as [_ HS]. fold x in HS.
    apply run_app in H. destruct H as (s1 & e2 & e3 & R1 & H & ->). 
    assert (reached E s1) as Re1 by (exists i, (os ++ [OReceive t]), (e0 ++ e2); exact (run_app_ok E _ _ _ _ _ _ _ R0 R1)).
    assert (exists e2', receive E t s0 = Ok (tt, s1, e2') /\ SpecBidi.sent e2 = []) as (e2' & Hrec & S2).
    { cbn [run step] in R1. apply bind_inv in R1. destruct R1 as (b & sa & ea & eb & R1 & R2 & ->). unfold ret in R2.
      assert (s1 = sa) as -> by congruence. assert (eb = []) as -> by congruence. rewrite app_nil_r.
      pose proof (mute_step E (OReceive t) _ _ _ _ R1 ltac:(discriminate) ltac:(discriminate)) as K.
      apply bind_inv in R1. destruct R1 as ([] & sc & ec & ed & R1 & R3 & ->). unfold ret in R3. assert (sa = sc) as -> by congruence.
      exists ec. split; [exact R1|exact K]. }
    destruct (receive_reply i os e0 _ s0 t p s1 e2' R0 HS Hserved Hc Hg Hrec) as [Hrep Hty].
    apply run_app in H. destruct H as (s2 & e4 & e5 & R2 & H & ->). destruct (neutral_run _ _ _ _ Hm1 R2) as [V1 S4].
    assert (reached E s2) as Re2 by (destruct Re1 as (j & oj & ej & Rj); exists j, (oj ++ mid), (ej ++ e4); exact (run_app_ok E _ _ _ _ _ _ _ Rj R2)).
    apply run_app in H. destruct H as (s3 & e6 & e7 & R3 & H & ->).
    assert (reached E s3) as Re3 by (destruct Re2 as (j & oj & ej & Rj); exists j, (oj ++ [OBiDi1]), (ej ++ e6); exact (run_app_ok E _ _ _ _ _ _ _ Rj R3)).
    apply run_app in H. destruct H as (s4 & e8 & e9 & R4 & H & ->). destruct (neutral_run _ _ _ _ Hm2 R4) as [V2 S8].
    assert (reached E s4) as Re4 by (destruct Re3 as (j & oj & ej & Rj); exists j, (oj ++ mid'), (ej ++ e8); exact (run_app_ok E _ _ _ _ _ _ _ Rj R4)).
    assert (Hty2 : atyp (last_address s2) = ATLogon) by (unfold last_address; unfold logon_view in V1; replace (received (r_addrs (rxs s2))) with (received (r_addrs (rxs s1))) by congruence; exact Hty).
    assert (A2 : logon_answers s2 = logon_answers s1) by (unfold logon_answers; unfold logon_view in V1; congruence).
    (* channel 1 *)
    destruct (biDi1_exact E s2 (talk_reached E _ Re2)) as (t3 & ds1 & B & _ & _ & _ & _ & B2 & _). destruct (B2 Hty2) as [-> _].
    assert (s3 = t3 /\ e6 = map ETransmitBiDi (map (firstn 2) (firstn 1 (logon_answers s2)))) as [-> ->].
    { cbn [run step] in R3. apply bind_inv in R3. destruct R3 as (b & sa & ea & eb & R3 & Hx & ->). unfold ret in Hx.
      assert (s3 = sa) as -> by congruence. assert (eb = []) as -> by congruence. clear Hx.
      apply bind_inv in R3. destruct R3 as ([] & sb & ec & ed & R3 & Hx & ->). unfold ret in Hx.
      assert (sa = sb) as -> by congruence. assert (ed = []) as -> by congruence. rewrite !app_nil_r. rewrite B in R3. split; congruence. }
    pose proof (sent_transmit (map (firstn 2) (firstn 1 (logon_answers s2)))) as S6.
    assert (V3 : logon_view (rxs t3) = logon_view (rxs s2)).
    { assert (step E OBiDi1 s2 = Ok (false, t3, map ETransmitBiDi (map (firstn 2) (firstn 1 (logon_answers s2))))) as K
        by (cbn [step]; unfold bind; rewrite B; unfold ret; rewrite app_nil_r; reflexivity).
      exact (view_step E OBiDi1 eq_refl ltac:(discriminate) _ _ _ _ K). }
    assert (Hty4 : atyp (last_address s4) = ATLogon) by (unfold last_address in *; unfold logon_view in *; congruence).
    assert (A4 : logon_answers s4 = logon_answers s1) by (unfold logon_answers in *; unfold logon_view in *; congruence).
    (* channel 2 *)
    cbn [run step] in H. apply bind_inv in H. destruct H as (b & s5 & ea & eb & H & Hx & ->). unfold ret in Hx.
    assert (s = s5) as -> by congruence. assert (eb = []) as -> by congruence. clear Hx. rewrite app_nil_r.
    apply bind_inv in H. destruct H as ([] & s6 & ec & ed & H & Hx & ->). unfold ret in Hx. assert (s5 = s6) as -> by congruence.
    assert (ed = []) as -> by congruence. clear Hx. rewrite app_nil_r.
    destruct (biDi2_reached E s4 tt s6 ec Re4 H) as (ds2 & -> & _ & An).
    assert (ds2 = map (skipn 2) (firstn 1 (logon_answers s4)) /\ logon_answers s6 = tl (logon_answers s4)) as [-> At].
    { clear - An Hty4. assert (~ In (atyp (last_address s4)) [ATShort; ATLong]) as Hn by (rewrite Hty4; cbn [In]; intuition discriminate).
      unfold SpecBidi.waiting in An. remember (cv_waiting s6, data_waiting s6, search_waiting s6, logon_answers s6) as w.
      destruct An as [Ht|Ho _ _|Ho _ _ _|Ho _ _ _|Ho|Ht|_ Ht _ _].
      - congruence.
      - destruct (Hn (proj1 Ho)).
      - destruct (Hn (proj1 Ho)).
      - destruct (Hn (proj1 Ho)).
      - destruct Ho as [[Ho _]|Ho]; destruct (Hn (proj1 Ho)).
      - split; congruence.
      - destruct (Ht Hty4). }
    unfold SpecBidi.sent in *. rewrite !flat_map_app. rewrite S2, S4, S6, S8. cbn [List.app].
    change (flat_map _ (map ETransmitBiDi (map (skipn 2) (firstn 1 (logon_answers s4))))) with (SpecBidi.sent (map ETransmitBiDi (map (skipn 2) (firstn 1 (logon_answers s4))))).
    rewrite sent_transmit, A2, A4. rewrite A4 in At.
    unfold replied in Hrep. destruct (reply _ _ _) as [v|].
    - destruct Hrep as (cs & Ha & Hcd). rewrite Ha in *. split; [|exact At]. exists cs. split; [reflexivity|exact Hcd].
    - rewrite Hrep in *. split; [reflexivity|exact At].
  Qed.
End Session.
