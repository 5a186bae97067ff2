(** The decoder model simulates the interpreter of SpecNode.v: logon packets and all calls *)
From Verif Require Import Prelude Address Instruction Packets Backoff Datagram ZBits SpecCodec RxState Rx CodecProofs CodecProofs2 RxLogic SpecRx RxBitProofs
  SpecExec ExecProofs SpecConf ConfProofs ConfProofs2 SpecCv CvProofs CvProofs2 CvProofs4 CvProofs5 CvProofs6 CvProofs7 RxInv SaneProofs
  SpecLogon LogonProofs LogonProofs2 LogonProofs3 SpecLayout LayoutProofs LayoutProofs2 LayoutProofs3 LayoutProofs4
  SpecNode NodeProofs NodeProofs2 NodeProofs4.
Local Ltac Zify.zify_post_hook ::= Z.div_mod_to_equations.

Lemma decode_default : forall bs A, Forall byte bs -> decode_address bs = Ok A -> A = address_of [nth 0 bs 0; nth 1 bs 0].
Proof.
  intros bs A Hb H. assert (byte 0) as H0 by (unfold byte; lia).
  destruct bs as [|b [|c r]]; [discriminate| |]; cbn [nth].
  - inversion Hb; subst. assert (decode_address [b; 0] = Ok A) as K.
    { revert H. cbn [decode_address]. repeat match goal with |- (if ?x then _ else _) = _ -> _ => destruct x; [intros K; exact K || discriminate K|] end. trivial. }
    rewrite decode_address_of in K; [congruence| |cbn [length]; lia]. repeat (apply Forall_cons; [assumption|]). apply Forall_nil.
  - inversion Hb as [|? ? H1 H2]; subst. inversion H2; subst. change (decode_address [b; c] = Ok A) in H.
    rewrite decode_address_of in H; [congruence| |cbn [length]; lia]. repeat (apply Forall_cons; [assumption|]). apply Forall_nil.
Qed.

Lemma same_id_eqb : forall a b, same_id a b = list_eqb a b.
Proof.
  intros a b. unfold same_id. destruct (list_eq_dec Z.eq_dec a b) as [e|e].
  - symmetry. apply list_eqb_spec. exact e.
  - symmetry. apply not_true_iff_false. rewrite list_eqb_spec. exact e.
Qed.

Lemma nth_at : forall (bs : list Z) i x, nth_error bs i = Some x -> nth i bs 0 = x.
Proof. intros bs i x H. apply nth_error_nth. exact H. Qed.

Section Logon.
  Context {I : Type} (E : Env I) (m : I -> Z -> Z) (able : access -> Prop) (Hk : keeps_cvs able E m).
  Implicit Types s : st I.
  Let Hm : cv_memory E m := proj1 Hk.
  Notation Sim := (Sim m).
  Notation simulates := (simulates m able).

  Lemma sim_fields : forall n s, Sim n s ->
    logon_on s = logon_enabled (n_conf n) /\ own_id s = did (n_conf n) /\ is_selected s = n_selected n /\ is_assigned s = n_assigned n /\
    known_station s = fst (n_known n) /\ known_session s = snd (n_known n).
  Proof.
    intros n s (_ & H). unfold nregs, registers in H.
    assert (r_conf (rxs s) = n_conf n) as H1 by congruence.
    assert (n_known n = (cid_front (r_logon (rxs s)), sid_front (r_logon (rxs s)))) as H2 by congruence.
    unfold logon_on, own_id, is_selected, is_assigned, known_station, known_session. rewrite H1, H2. cbn [fst snd].
    repeat split; congruence.
  Qed.

  Ltac fields := unfold nregs, registers in *;
    cbn [n_view n_own n_consist n_logon n_conf n_selected n_assigned n_store n_known n_new fst snd] in *.

  Lemma sim_select : forall n s id u s' es, sane (rxs s) -> Sim n s -> logonSelect id s = Ok (u, s', es) ->
    Sim (hear_select id n) s' /\ seen_in es = [].
  Proof.
    intros n s id u s' es Hs HS H. destruct (select_run s id Hs) as (cs & _ & Hr). rewrite Hr in H. clear Hr.
    destruct (sim_fields n s HS) as (F1 & F2 & F3 & F4 & F5 & F6).
    unfold hear_select. rewrite same_id_eqb. rewrite F1, F2, F4 in H.
    destruct (logon_enabled (n_conf n) && negb (n_assigned n) && list_eqb id (did (n_conf n))).
    - destruct (logon_answers s); [|discriminate].
      match type of H with Ok (_, ?x, _) = _ => assert (s' = x) as -> by congruence end. assert (es = []) as -> by congruence.
      split; [|reflexivity]. destruct HS as (A & B). split; [exact A|]. unfold with_rx. fields.
      destruct (rxs s) as [? ? ? ? ? [] ? ? ?]. cbn in *. congruence.
    - assert (s' = s) as -> by congruence. assert (es = []) as -> by congruence. auto.
  Qed.

  Lemma sim_assign : forall n s id a ow u s' es, Sim n s -> logonAssign id a ow s = Ok (u, s', es) ->
    Sim (hear_assign id a ow n) s' /\ seen_in es = [].
  Proof.
    intros n s id a ow u s' es HS H. destruct (assign_run s id a ow) as (cs & _ & Hr). rewrite Hr in H. clear Hr.
    destruct (sim_fields n s HS) as (F1 & F2 & F3 & F4 & F5 & F6).
    unfold hear_assign. rewrite same_id_eqb. rewrite F1, F2 in H.
    destruct (logon_enabled (n_conf n) && list_eqb id (did (n_conf n))).
    - destruct (logon_answers s); [|discriminate].
      match type of H with Ok (_, ?x, _) = _ => assert (s' = x) as -> by congruence end. assert (es = []) as -> by congruence.
      split; [|reflexivity]. destruct HS as (A & B). split; [exact A|]. unfold with_rx, assigned_rx, no_number. fields.
      assert (primary (r_addrs (rxs s)) = n_own n) as Hp by congruence.
      assert (consist (r_addrs (rxs s)) = n_consist n) as Hc by congruence.
      rewrite <- Hp, <- Hc. destruct (rxs s) as [? ? ? [] ? [] ? ? ?]. cbn in *. destruct (negb (aval a =? 0) && ow); congruence.
    - assert (s' = s) as -> by congruence. assert (es = []) as -> by congruence. auto.
  Qed.

  Lemma answering_regs : forall g cs s u s' es, answering E g cs s = Ok (u, s', es) ->
    nregs (rxs s') = nregs (rxs s) /\ m (app s') = m (app s) /\ es = [].
  Proof.
    intros g cs s u s' es H. unfold answering in H. cbv zeta in H.
    assert (K : (if bo_count (pause_for g (logon_backoff (r_logon (rxs s)))) =? 0 then
        let '(n, i) := e_rand E (app s) in
        match logon_deque (r_logon (rxs s)) with
        | [] => Ok (tt, Mk_st (set_logon_deque [cs] (set_logon_backoff
                  (Mk_backoff (Z.min (bo_range (pause_for g (logon_backoff (r_logon (rxs s)))) + 1) 3) (n mod (8 * 2 ^ bo_range (pause_for g (logon_backoff (r_logon (rxs s)))))))
                  (rxs s))) i (pending s), [])
        | _ => UB AssertFailed
        end
      else Ok (tt, with_rx (set_logon_backoff (Mk_backoff (bo_range (pause_for g (logon_backoff (r_logon (rxs s))))) (bo_count (pause_for g (logon_backoff (r_logon (rxs s)))) - 1))) s, []))
        = Ok (u, s', es) -> nregs (rxs s') = nregs (rxs s) /\ m (app s') = m (app s) /\ es = []).
    { clear H. destruct (bo_count _ =? 0).
      - pose proof (mem_rand E m Hm (app s)) as Kr. destruct (e_rand E (app s)) as [n i]. cbn [snd] in Kr.
        destruct (logon_deque (r_logon (rxs s))); [|discriminate]. intros H.
        match type of H with Ok (_, ?x, _) = _ => assert (s' = x) as -> by congruence end. split; [reflexivity|]. split; [exact Kr|congruence].
      - intros H. match type of H with Ok (_, ?x, _) = _ => assert (s' = x) as -> by congruence end. split; [reflexivity|]. split; [reflexivity|congruence]. }
    destruct g; try (exact (K H)). assert (s' = s) as -> by congruence. split; [reflexivity|]. split; [reflexivity|congruence].
  Qed.

  Lemma sim_enable : forall n s g cid sid u s' es, sane (rxs s) -> byte sid -> Sim n s -> logonEnable E g cid sid s = Ok (u, s', es) ->
    Sim (hear_enable cid sid n) s' /\ seen_in es = [].
  Proof.
    intros n s g cid sid u s' es Hs Hsid HS H. destruct (enable_run E s g cid sid Hs Hsid) as (cs & _ & Hr). rewrite Hr in H. clear Hr.
    destruct (sim_fields n s HS) as (F1 & F2 & F3 & F4 & F5 & F6). unfold hear_enable. unfold recognized_b in H.
    rewrite F5, F6 in H. rewrite F1, F3 in H.
    replace (logon_enabled (n_conf n) && negb (n_selected n)) with (negb (negb (logon_enabled (n_conf n)) || n_selected n))
      by (destruct (logon_enabled (n_conf n)), (n_selected n); reflexivity).
    destruct (negb (logon_enabled (n_conf n)) || n_selected n); cbn [negb].
    { assert (s' = s) as -> by congruence. assert (es = []) as -> by congruence. auto. }
    destruct (cid =? fst (n_known n)); cbn [andb] in H.
    - destruct ((0 <=? sid - snd (n_known n)) && (sid - snd (n_known n) <=? 4)).
      + pose proof (mem_read E m Hm (app s) 65299) as K1. destruct (e_readCv E (app s) 65299) as [x i1]. cbn [fst snd] in K1.
        pose proof (mem_read E m Hm i1 65300) as K2. destruct (e_readCv E i1 65300) as [y i2]. cbn [fst snd] in K2.
        destruct K1 as [K1 K3], K2 as [K2 K4].
        match type of H with Ok (_, ?x, ?y) = _ => assert (s' = x) as -> by congruence; assert (es = y) as -> by congruence end.
        split; [|reflexivity]. destruct HS as (A & B). split; [intros a; cbn [app]; rewrite K4, K3; apply A|].
        rewrite K1, K2, K3, !A. unfold restored, noted. fields. destruct (rxs s) as [? ? ? [] ? [] ? ? ?]. cbn in *. congruence.
      + destruct (answering_regs _ _ _ _ _ _ H) as (R1 & R2 & ->). split; [|reflexivity]. destruct HS as (A & B).
        split; [intros a; rewrite R2; apply A|]. rewrite R1. unfold with_rx, forgotten, noted, no_number. fields.
        assert (logon (r_addrs (rxs s)) = n_logon n) as Hp by congruence. rewrite <- Hp.
        destruct (rxs s) as [? ? ? [] ? [] ? ? ?]. cbn in *. congruence.
    - destruct (answering_regs _ _ _ _ _ _ H) as (R1 & R2 & ->). split; [|reflexivity]. destruct HS as (A & B).
      split; [intros a; rewrite R2; apply A|]. rewrite R1. unfold with_rx, noted. fields.
      destruct (rxs s) as [? ? ? [] ? [] ? ? ?]. cbn in *. congruence.
  Qed.

  (** The handler *)
  Definition hear_intact (p : list Z) n : node :=
    let k := nth 1 p 0 in
    if k <? 208 then n
    else if k <? 224 then hear_select (firstn 4 (skipn 3 p)) n
    else if k <? 240 then
      match understood (nth 7 p 0) (nth 8 p 0) (nth 9 p 0) with
      | Some A => hear_assign (firstn 4 (skipn 3 p)) A (nth 7 p 0 <? 192) n
      | None => n
      end
    else hear_enable (256 * nth 2 p 0 + nth 3 p 0) (nth 4 p 0) n.
  Lemma hear_split : forall p n, hear p n = if undamaged_b p then hear_intact p n else n.
  Proof. intros p n. unfold hear. change (intact p) with (undamaged_b p). destruct (undamaged_b p); reflexivity. Qed.

  Lemma nibble_at : forall k c, In c [208; 224; 240] -> byte k -> (Z.land k 0xF0 =? c) = ((c <=? k) && (k <? c + 16)).
  Proof.
    intros k c Hc Hk0. apply eqb_prop.
    pose proof (sweep8 (fun k => forallb (fun c => Bool.eqb (Z.land k 0xF0 =? c) ((c <=? k) && (k <? c + 16))) [208; 224; 240])
             ltac:(vm_compute; reflexivity) k Hk0) as S. cbn beta in S. rewrite forallb_forall in S. exact (S c Hc).
  Qed.

  Lemma sim_handler : forall n s r b s' es, sane (rxs s) -> Forall byte r -> Sim n s ->
    executeAutomaticLogon E (Addr 254 ATLogon false) r s = Ok (b, s', es) ->
    Sim (hear_intact (254 :: r) n) s' /\ seen_in es = [].
  Proof.
    intros n s r b s' es Hs Hb HS H. unfold executeAutomaticLogon in H. cbn [aval] in H. change (negb (254 =? 254)) with false in H. cbn iota in H.
    apply bind_inv in H. destruct H as (k & s1 & e1 & e2 & H1 & H & ->).
    assert (N : forall i x s1 e s, at_ r i s = Ok (x, s1, e) -> nth i r 0 = x /\ s1 = s /\ e = [] /\ byte x).
    { clear - Hb. intros i x s1 e s H. unfold at_ in H. destruct (nth_error r i) as [y|] eqn:En; [|discriminate]. unfold ret in H.
      assert (y = x) as -> by congruence. split; [apply nth_at; exact En|]. split; [congruence|]. split; [congruence|].
      exact (proj1 (Forall_forall byte r) Hb x (nth_error_In _ _ En)). }
    destruct (N _ _ _ _ _ H1) as (Nk & -> & -> & Bk). clear H1.
    apply bind_inv in H. destruct H as ([] & s2 & e3 & e4 & H & H2 & ->). unfold ret in H2.
    assert (s' = s2) as -> by congruence. assert (e4 = []) as -> by congruence. rewrite app_nil_r. cbn [List.app]. clear H2.
    unfold hear_intact. cbv zeta. change (nth 1 (254 :: r) 0) with (nth 0 r 0). rewrite Nk.
    rewrite !nibble_at in H by (cbn [In]; auto). unfold byte in Bk.
    assert (L : forall A (x : res A) (f : A -> M (I := I) unit) s, bind (lift x) f s = Ok (tt, s2, e3) -> exists a, x = Ok a /\ f a s = Ok (tt, s2, e3)).
    { intros A [a|u] f s0 Hx; [|discriminate Hx]. rewrite bind_lift in Hx. eauto. }
    change (skipn 3 (254 :: r)) with (skipn 2 r).
    assert (D : forall d, subspan4 r 2 = Ok d -> d = firstn 4 (skipn 2 r)).
    { intros d Hd. unfold subspan4 in Hd. destruct (2 + 4 <=? length r)%nat; [|discriminate]. congruence. }
    destruct (Z.ltb_spec k 208).
    { replace ((208 <=? k) && (k <? 208 + 16)) with false in H by (symmetry; lia).
      replace ((224 <=? k) && (k <? 224 + 16)) with false in H by (symmetry; lia).
      replace ((240 <=? k) && (k <? 240 + 16)) with false in H by (symmetry; lia).
      exact (done_idle m _ _ _ _ _ HS H). }
    destruct (Z.ltb_spec k 224).
    { replace ((208 <=? k) && (k <? 208 + 16)) with true in H by (symmetry; lia).
      destruct (L _ _ _ _ H) as (d & Hd & Hx). rewrite <- (D d Hd). exact (sim_select n s d tt s2 e3 Hs HS Hx). }
    replace ((208 <=? k) && (k <? 208 + 16)) with false in H by (symmetry; lia).
    destruct (Z.ltb_spec k 240).
    { replace ((224 <=? k) && (k <? 224 + 16)) with true in H by (symmetry; lia).
      destruct (L _ _ _ _ H) as (d & Hd & Hx). rewrite <- (D d Hd).
      apply bind_inv in Hx. destruct Hx as (a & s1 & e1 & e2 & Hat & Hx & ->).
      destruct (N _ _ _ _ _ Hat) as (Na & -> & -> & Ba). clear Hat. cbn [List.app] in *.
      change (nth 7 (254 :: r) 0) with (nth 6 r 0). change (nth 8 (254 :: r) 0) with (nth 7 r 0). change (nth 9 (254 :: r) 0) with (nth 8 r 0).
      rewrite Na. cbv zeta in Hx.
      replace (Z.land a 0x3F) with (a mod 64) in Hx by (change 0x3F with (Z.ones 6); rewrite Z.land_ones by lia; reflexivity).
      replace (negb (Z.land a 0xC0 =? 0xC0)) with (a <? 192) in Hx.
      2: { apply eqb_prop. exact (sweep8 (fun a => Bool.eqb (a <? 192) (negb (Z.land a 0xC0 =? 0xC0))) ltac:(vm_compute; reflexivity) a Ba). }
      assert (T : forall i A, decode_address (skipn i r) = Ok A -> A = address_of [nth i r 0; nth (S i) r 0]).
      { clear - Hb. intros i A HA. assert (Forall byte (skipn i r)) as Hbs.
        { rewrite <- (firstn_skipn i r) in Hb. apply Forall_app in Hb. apply Hb. }
        rewrite (decode_default _ _ Hbs HA). f_equal.
        assert (forall j, nth j (skipn i r) 0 = nth (i + j) r 0) as Hn.
        { clear. revert r. induction i as [|i IH]; intros r j; [reflexivity|]. destruct r as [|x r]; [destruct j; reflexivity|]. cbn [skipn Nat.add nth]. apply IH. }
        rewrite !Hn, Nat.add_0_r, Nat.add_1_r. reflexivity. }
      unfold understood. cbv zeta. destruct (Z.ltb_spec (a mod 64) 40) as [H3|H3].
      - destruct (L _ _ _ _ Hx) as (A & HA & Hy). rewrite <- Na in Hy at 1. pose proof (T 6%nat A HA) as TA. rewrite Na in TA. rewrite <- TA.
        rewrite Na in Hy. exact (sim_assign n s d A (a <? 192) tt s2 e2 HS Hy).
      - replace (a mod 64 <? 0x28) with false in Hx by (symmetry; lia). destruct (Z.eqb_spec (a mod 64) 56) as [H4|H4].
        + rewrite H4 in Hx. change (56 <? 0x38) with false in Hx. change (56 <? 0x39) with true in Hx. cbn iota in Hx.
          destruct (L _ _ _ _ Hx) as (A & HA & Hy). pose proof (T 7%nat A HA) as TA. rewrite <- TA.
          exact (sim_assign n s d A (a <? 192) tt s2 e2 HS Hy).
        + destruct (a mod 64 <? 0x38) eqn:E3; [exact (done_idle m _ _ _ _ _ HS Hx)|].
          replace (a mod 64 <? 0x39) with false in Hx by (symmetry; lia). exact (done_idle m _ _ _ _ _ HS Hx). }
    replace ((224 <=? k) && (k <? 224 + 16)) with false in H by (symmetry; lia).
    replace ((240 <=? k) && (k <? 240 + 16)) with true in H by (symmetry; lia).
    destruct (L _ _ _ _ H) as (cid & Hc & Hx).
    apply bind_inv in Hx. destruct Hx as (sid & s1 & e1 & e2 & Hat & Hx & ->).
    destruct (N _ _ _ _ _ Hat) as (Ns & -> & -> & Bs). clear Hat. cbn [List.app] in *.
    change (nth 2 (254 :: r) 0) with (nth 1 r 0). change (nth 3 (254 :: r) 0) with (nth 2 r 0). change (nth 4 (254 :: r) 0) with (nth 3 r 0).
    rewrite Ns. assert (256 * nth 1 r 0 + nth 2 r 0 = cid) as ->.
    { clear - Hc Hb. destruct r as [|r0 [|r1 [|r2 r]]]; try discriminate. cbn [skipn nth] in *. cbn [data2uint16] in Hc.
      inversion Hb as [|? ? _ Hb1]; subst. inversion Hb1 as [|? ? B1 Hb2]; subst. inversion Hb2 as [|? ? B2 _]; subst. unfold byte in *.
      assert (cid = u16 (Z.lor (Z.shiftl r1 8) r2)) as -> by congruence.
      rewrite Z.shiftl_mul_pow2 by lia. rewrite lor_add by lia. unfold u16. change (2 ^ 8) with 256. rewrite Z.mod_small; lia. }
    exact (sim_enable n s _ cid sid tt s2 e2 Hs Bs HS Hx).
  Qed.
End Logon.
