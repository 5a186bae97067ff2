(** The decoder model simulates the interpreter of SpecNode.v: execution of a packet *)
From Verif Require Import Prelude Address Instruction Datagram ZBits SpecCodec RxState Rx CodecProofs CodecProofs2 RxLogic SpecRx RxBitProofs
  SpecExec ExecProofs SpecConf ConfProofs ConfProofs2 SpecCv CvProofs CvProofs2 CvProofs4 CvProofs5 CvProofs6 CvProofs7 RxInv SaneProofs SpecLogon
  SpecLayout LayoutProofs LayoutProofs2 LayoutProofs3 LayoutProofs4 SpecNode NodeProofs NodeProofs2 NodeProofs3.
Local Ltac Zify.zify_post_hook ::= Z.div_mod_to_equations.

Section Execute.
  Context {I : Type} (E : Env I) (m : I -> Z -> Z) (able : access -> Prop) (Hk : keeps_cvs able E m).
  Implicit Types s : st I.
  Let Hm : cv_memory E m := proj1 Hk.
  Notation Sim := (Sim m).
  Notation simulates := (simulates m able).

  (** ** Storing *)

  Definition stored (xs : list access) (c : Z -> Z) : Z -> Z := fold_left (fun c x => after x c) xs c.
  Definition writes {A} (xs : list access) (f : M (I := I) A) : Prop :=
    forall s u s' es, f s = Ok (u, s', es) -> Forall able xs ->
    (forall c, (forall a, m (app s) a = c a) -> forall a, m (app s') a = stored xs c a) /\ seen_in es = map Access xs.
  Lemma writes_bind : forall A B (f : M (I := I) A) (k : A -> M B) xs ys, writes xs f -> (forall a, writes ys (k a)) ->
    writes (xs ++ ys) (bind f k).
  Proof.
    intros A B f k xs ys Hf Hg s u s' es H Ha. apply bind_inv in H. destruct H as (a & s1 & e1 & e2 & H1 & H2 & ->).
    apply Forall_app in Ha. destruct Ha as [Ha1 Ha2].
    destruct (Hf _ _ _ _ H1 Ha1) as [A1 B1]. destruct (Hg _ _ _ _ _ H2 Ha2) as [A2 B2].
    split; [|rewrite seen_app, map_app, B1, B2; reflexivity].
    intros c Hc. unfold stored. rewrite fold_left_app. apply A2. apply A1. exact Hc.
  Qed.
  Lemma writes_one : forall A B (f : M (I := I) A) (k : A -> M B) x ys, writes [x] f -> (forall a, writes ys (k a)) ->
    writes (x :: ys) (bind f k).
  Proof. intros A B f k x ys. exact (writes_bind A B f k [x] ys). Qed.
  Lemma writes_none : forall A B (f : M (I := I) A) (k : A -> M B) ys, writes [] f -> (forall a, writes ys (k a)) ->
    writes ys (bind f k).
  Proof. intros A B f k ys. exact (writes_bind A B f k [] ys). Qed.
  Lemma writes_ret : forall A (a : A), writes [] (ret a).
  Proof. intros A a s u s' es H _. unfold ret in H. assert (s' = s) as -> by congruence. assert (es = []) as -> by congruence. auto. Qed.
  Lemma writes_modify : forall g, writes [] (modify g).
  Proof. intros g s u s' es H _. unfold modify in H. inversion H; subst. split; [intros c Hc; exact Hc|reflexivity]. Qed.
  Lemma writes_byte : forall a b, byte b -> writes [Store a b] (writeCv E a b).
  Proof.
    intros a b Hb s u s' es H Ha. inversion Ha as [|? ? Hra _]; subst.
    unfold writeCv in H. pose proof (mem_write E m Hm (app s) a b) as K.
    pose proof (proj1 (proj2 Hk) (app s) a b Hra Hb) as Kw.
    destruct (e_writeCv E (app s) a b) as [w i]. cbn [fst snd] in K, Kw. destruct K as [Kv Km].
    assert (es = [EWriteCv a b (u8 w)]) as -> by congruence.
    assert (s' = Mk_st (rxs s) i (pending s)) as -> by congruence. split; [|reflexivity].
    intros c Hc x. cbn [app stored fold_left after]. unfold set_cv.
    destruct (Z.eqb_spec x a) as [->|Hx]; [exact Kw|]. rewrite (Km x Hx). apply Hc.
  Qed.
  Lemma writes_bit : forall a b k, 0 <= k < 8 -> writes [StoreBit a b k] (writeCvBit E a b k).
  Proof.
    intros a b k Hk8 s u s' es H Ha. inversion Ha as [|? ? Hra _]; subst.
    unfold writeCvBit in H. pose proof (mem_writeBit E m Hm (app s) a b k Hk8) as K.
    pose proof (proj2 (proj2 Hk) (app s) a b k Hra Hk8) as Kw.
    destruct (e_writeCvBit E (app s) a b k) as [w i]. cbn [fst snd] in K, Kw. destruct K as [Kv Km].
    assert (es = [EWriteCvBit a b k w]) as -> by congruence.
    assert (s' = Mk_st (rxs s) i (pending s)) as -> by congruence. split; [|reflexivity].
    intros c Hc x. cbn [app stored fold_left after]. unfold set_cv.
    destruct (Z.eqb_spec x a) as [->|Hx]; [rewrite Kw, Hc; reflexivity|]. rewrite (Km x Hx). apply Hc.
  Qed.

  Lemma same_number_eqb : forall a b, same_number a b = addr_eqb a b.
  Proof.
    intros [x [] ?] [y [] ?]; unfold same_number, addr_eqb; cbn [aval atyp is_loco_type andb atype_eqb];
      rewrite ?andb_true_r, ?andb_false_r; reflexivity.
  Qed.

  Lemma allowed_stores : forall xs, Forall (fun x => is_writing x = true) xs -> Forall (allowed able) (map Access xs) -> Forall able xs.
  Proof.
    induction xs as [|x xs IH]; intros H K; [apply Forall_nil|]. inversion H as [|? ? H1 H2]; subst. inversion K as [|? ? K1 K2]; subst.
    apply Forall_cons; [exact (K1 H1)|exact (IH H2 K2)].
  Qed.

  Lemma sim_store : forall n s u s' es, sane (rxs s) -> Sim n s -> logonStore E s = Ok (u, s', es) ->
    Forall (allowed able) (snd (store_all n)) -> Sim (fst (store_all n)) s' /\ seen_in es = snd (store_all n).
  Proof.
    intros n s u s' es Hs HS H Hra. open_sane Hs. unfold logonStore in H. rewrite bind_get in H.
    unfold store_all in *. assert (logon_store (r_logon (rxs s)) = n_store n) as El
      by (destruct HS as (_ & HS); unfold nregs, registers in HS; congruence).
    rewrite El in H. destruct (n_store n); cbn [negb fst snd] in *; [|exact (done_idle m _ _ _ _ _ HS H)].
    cbv zeta in H.
    assert (primary (r_addrs (rxs s)) = n_own n) as Ep by (destruct HS as (_ & HS); unfold nregs, registers in HS; congruence).
    assert (logon (r_addrs (rxs s)) = n_logon n) as Eg by (destruct HS as (_ & HS); unfold nregs, registers in HS; congruence).
    assert ((cid_back (r_logon (rxs s)), sid_back (r_logon (rxs s))) = n_new n) as En by (destruct HS as (_ & HS); unfold nregs, registers in HS; congruence).
    rewrite Ep, Eg in *. rewrite <- same_number_eqb in H.
    unfold to_be_stored in *. rewrite <- En in *. cbn [fst snd] in *.
    set (o := aval (n_own n)) in *. set (l := aval (n_logon n)) in *.
    set (c := cid_back (r_logon (rxs s))) in *. set (d := sid_back (r_logon (rxs s))) in *.
    assert (u8 (Z.lor 0xC0 (Z.shiftr o 8)) = 192 + o / 256) as E1.
    { rewrite shiftr_div by lia. change (2 ^ 8) with 256. change 0xC0 with (3 * 2 ^ 6). rewrite lor_add by lia. unfold u8. rewrite Z.mod_small; lia. }
    assert (u8 (Z.shiftr c 8) = c / 256) as E2 by (rewrite shiftr_div by lia; change (2 ^ 8) with 256; unfold u8; rewrite Z.mod_small; lia).
    assert (u8 (Z.shiftr l 8) = l / 256) as E3 by (rewrite shiftr_div by lia; change (2 ^ 8) with 256; unfold u8; rewrite Z.mod_small; lia).
    rewrite E1, E2, E3 in H. clear E1 E2 E3. change (u8 o) with (o mod 256) in H. change (u8 c) with (c mod 256) in H. change (u8 l) with (l mod 256) in H.
    set (xs := (if same_number (n_own n) (n_logon n) then stores_own o else []) ++ stores_logon c d l) in *.
    match type of H with ?f s = _ => assert (writes xs f) as Hw end.
    { apply writes_none; [apply writes_modify|intros _]. apply writes_bind.
      - unfold when. destruct (same_number (n_own n) (n_logon n)); [|apply writes_ret].
        apply writes_one; [apply writes_byte; unfold byte; lia|intros _].
        apply writes_one; [apply writes_byte; unfold byte; lia|intros _].
        apply writes_one; [apply writes_bit; lia|intros _]. apply writes_ret.
      - intros _. unfold stores_logon.
        apply writes_one; [apply writes_byte; unfold byte; lia|intros _].
        apply writes_one; [apply writes_byte; unfold byte; lia|intros _].
        apply writes_none; [apply writes_modify|intros _].
        apply writes_one; [apply writes_byte; unfold byte; lia|intros _].
        apply writes_one; [apply writes_byte; unfold byte; lia|intros _].
        apply writes_none; [apply writes_modify|intros _].
        apply writes_one; [apply writes_byte; assumption|intros _].
        apply writes_one; [apply writes_byte; unfold byte; lia|intros _].
        apply writes_one; [apply writes_byte; unfold byte; lia|intros _]. apply writes_ret. }
    assert (Forall able xs) as Hab.
    { apply allowed_stores; [|exact Hra]. subst xs. apply Forall_app. split; [destruct (same_number (n_own n) (n_logon n)); [|apply Forall_nil]|];
        repeat (apply Forall_cons; [reflexivity|]); apply Forall_nil. }
    destruct (Hw _ _ _ _ H Hab) as [W1 W2]. split; [|exact W2]. destruct HS as (A & B). split.
    - intros a. exact (W1 _ A a).
    - subst c d. clear - H B. clearbody o l. revert H. unfold when, bind, modify, writeCv, writeCvBit, ret.
      destruct (same_number (n_own n) (n_logon n)); cbn [rxs app pending];
        repeat match goal with |- context [let '(v, i) := ?x in _] => destruct x as [? ?]; cbn [rxs app pending] end;
        intros H; match type of H with Ok (_, ?x, _) = _ => assert (s' = x) as -> by congruence end;
        unfold nregs, registers in *; cbn [n_view n_own n_consist n_logon n_conf n_selected n_assigned n_store n_known n_new with_cvs v_service v_page v_last v_times rxs];
        destruct (rxs s) as [? ? ? ? ? [] ? ? ?]; cbn in *; congruence.
  Qed.

  Lemma sim_housekeeping : forall n s u s' es, sane (rxs s) -> Sim n s -> housekeeping E s = Ok (u, s', es) ->
    Forall (allowed able) (snd (store_all n)) -> Sim (fst (store_all n)) s' /\ seen_in es = snd (store_all n).
  Proof.
    intros n s u s' es Hs HS H Hra. unfold housekeeping in H.
    apply bind_inv in H. destruct H as ([] & s1 & e1 & e0 & H1 & H & ->).
    apply bind_inv in H. destruct H as ([] & s2 & e2 & e0' & H2 & H & ->).
    assert (sane (rxs s1)) as Hs1 by exact (sane_adr _ _ _ _ H1 Hs).
    assert (simulates (@adr I) idle) as K1 by (apply sim_idle; [keeps_tac|apply quiet_adr|emits_tac; reflexivity]).
    destruct (K1 _ _ _ _ _ HS H1 (Forall_nil _)) as [HS1 V1]. cbn [idle fst snd] in HS1, V1.
    destruct (sim_store n s1 _ _ _ Hs1 HS1 H2 Hra) as [HS2 V2].
    match type of H with ?f s2 = _ => assert (simulates f idle) as K2 end.
    { apply sim_bind_idle; [apply sim_idle; [keeps_tac|apply quiet_qos|emits_tac; reflexivity]|intros _].
      apply sim_idle; [keeps_tac|apply (quiet_tp _ _ Hm)|emits_tac; reflexivity]. }
    destruct (K2 _ _ _ _ _ HS2 H (Forall_nil _)) as [HS3 V3]. cbn [idle fst snd] in HS3, V3.
    split; [exact HS3|]. rewrite !seen_app, V1, V2, V3, app_nil_r. reflexivity.
  Qed.

  Lemma turned_same : forall n s k d, Sim n s -> turned (r_addrs (rxs s)) k d = turned (in_force n) k d.
  Proof.
    intros n s k d (_ & H). unfold turned, in_force. cbn [primary consist]. unfold nregs, registers in H.
    assert (primary (r_addrs (rxs s)) = n_own n) as -> by congruence. assert (consist (r_addrs (rxs s)) = n_consist n) as -> by congruence. reflexivity.
  Qed.
  Lemma drive_same : forall v s n d k x, Sim v s -> drive (r_addrs (rxs s)) n d k x = drive (in_force v) n d k x.
  Proof. intros v s n d k x HS. unfold drive. rewrite (turned_same v s n d HS). reflexivity. Qed.
  Lemma speed126_same : forall v s n b, Sim v s -> speed126_calls (r_addrs (rxs s)) n b = speed126_calls (in_force v) n b.
  Proof. intros v s n b HS. unfold speed126_calls. rewrite !(drive_same v s n _ _ _ HS). reflexivity. Qed.
  Lemma speed28_same : forall v s f n b, Sim v s -> speed28_calls (r_addrs (rxs s)) f n b = speed28_calls (in_force v) f n b.
  Proof. intros v s f n b HS. unfold speed28_calls. rewrite !(drive_same v s n _ _ _ HS). reflexivity. Qed.
  Lemma f0_same : forall v s, Sim v s -> f0_exception (r_conf (rxs s)) = f0_exception (n_conf v).
  Proof. intros v s (_ & H). unfold nregs, registers in H. congruence. Qed.

  (** The number under which a packet is obeyed *)
  Lemma obeyed_spec : forall v s p n, Sim v s -> obeyed_as v p = Some n <-> for_locos p /\ acts_as (r_addrs (rxs s)) p n.
  Proof.
    intros v s p n (_ & HS). unfold nregs, registers in HS. unfold obeyed_as, for_locos.
    assert (n_own v = primary (r_addrs (rxs s))) as -> by congruence.
    assert (n_consist v = consist (r_addrs (rxs s))) as -> by congruence.
    assert (n_logon v = logon (r_addrs (rxs s))) as -> by congruence. clear HS.
    set (ad := r_addrs (rxs s)). cbv zeta.
    assert (K : (if aval (address_of p) =? 0 then Some 0
                 else if aval (logon ad) =? 0 then
                   if has_number (primary ad) (aval (address_of p)) || has_number (consist ad) (aval (address_of p))
                   then Some (aval (address_of p)) else None
                 else if has_number (logon ad) (aval (address_of p)) then Some (aval (primary ad)) else None) = Some n
                <-> acts_as ad p n).
    { destruct (Z.eqb_spec (aval (address_of p)) 0) as [Z0|N0].
      - split.
        + intros X. assert (n = 0) as -> by congruence. apply to_all. exact Z0.
        + intros X. inversion X; subst; congruence.
      - destruct (Z.eqb_spec (aval (logon ad)) 0) as [ZL|NL].
        + destruct (has_number (primary ad) (aval (address_of p)) || has_number (consist ad) (aval (address_of p))) eqn:Eh.
          * split; [|intros X; inversion X; subst; try congruence].
            -- intros X. assert (aval (address_of p) = n) as En by congruence.
               apply to_own; [congruence|exact En|exact ZL|].
               rewrite <- En. apply orb_true_iff in Eh. rewrite !has_number_spec in Eh. exact Eh.
            -- exfalso. match goal with H : loco_number (logon _) _ |- _ => destruct H as [_ H]; congruence end.
          * split; [discriminate|]. intros X. exfalso. inversion X; subst; try congruence.
            -- apply orb_false_iff in Eh. rewrite <- !not_true_iff_false, !has_number_spec in Eh. tauto.
            -- match goal with H : loco_number (logon _) _ |- _ => destruct H as [_ H]; congruence end.
        + destruct (has_number (logon ad) (aval (address_of p))) eqn:Eh.
          * split; [|intros X; inversion X; subst; congruence].
            intros X. assert (n = aval (primary ad)) as -> by congruence. apply has_number_spec in Eh.
            apply (to_assigned ad p (aval (address_of p))); [exact N0|reflexivity|exact Eh].
          * split; [discriminate|]. intros X. exfalso. inversion X; subst; try congruence.
            rewrite <- not_true_iff_false, has_number_spec in Eh. tauto. }
    destruct (atyp (address_of p)); rewrite ?K; cbn [In]; intuition (try discriminate).
  Qed.

  Lemma Sim_pop : forall v s q, Sim v s -> Sim v (pop q s).
  Proof. intros v s q. apply Sim_kept; reflexivity. Qed.

  Lemma sim_quiet : forall A (f : M (I := I) A) v s u s' es, keeps nregs f -> quiet m f -> Sim v s -> f s = Ok (u, s', es) -> Sim v s'.
  Proof.
    intros A f v s u s' es H1 H2 HS H. destruct (H2 _ _ _ _ H) as (_ & Q2 & _).
    exact (Sim_kept m v s s' (H1 _ _ _ _ H) Q2 HS).
  Qed.

  Lemma sim_operate : forall v s1 p q b s' es, Forall byte p -> (3 <= length p)%nat -> r_deque (rxs s1) = p :: q ->
    Sim v s1 -> v_service (n_view v) = false -> executeCommand E s1 = Ok (b, s', es) ->
    Forall (allowed able) (snd (operate (e_east_west E) p v)) ->
    Sim (fst (operate (e_east_west E) p v)) s' /\ seen_in es = snd (operate (e_east_west E) p v).
  Proof.
    intros v s1 p q b s' es Hb Hl Hd HS1 Hsv H Hra.
    assert (in_service s1 = false) as Hm1 by (unfold in_service; rewrite (sim_mode m v s1 HS1); exact Hsv).
    destruct (command_operations E s1 p q Hm1 Hd Hb Hl) as [(Hf & n & Ha & Hc)|(Hn & Hc)].
    2: { rewrite Hc in H. assert (obeyed_as v p = None) as Hnone.
         { destruct (obeyed_as v p) as [n|] eqn:Er; [|reflexivity].
           apply (obeyed_spec v s1 p n HS1) in Er. elim Hn. split; [apply Er|]. exists n. apply Er. }
         unfold operate. rewrite Hnone. cbn [fst snd].
         assert (s' = s1) as -> by congruence. assert (es = []) as -> by congruence. auto. }
    assert (obeyed_as v p = Some n) as Hrec by (apply (obeyed_spec v s1 p n HS1); split; [exact Hf|exact Ha]).
    rewrite Hc in H. apply bind_inv in H. destruct H as ([] & s3 & e3 & e4 & Hdis & Hret & ->).
    unfold ret in Hret. assert (s' = s3) as -> by congruence. assert (e4 = []) as -> by congruence. rewrite app_nil_r in *. clear Hret Hc.
    assert (KS : forall w, Sim w s3 -> Sim w s3) by trivial.
    unfold operate in *. rewrite Hrec in *.
    pose proof (body_bytes p Hb) as Hbb. pose proof (body_nonempty p Hl) as Hbn.
    destruct (body_of p) as [|b0 t] eqn:Ebody; [congruence|]. clear Hbn.
    inversion Hbb as [|? ? Hb0 Hbt]; subst. pose proof Hdis as H0. rewrite (dispatch_class E n b0 t s1 Hb0) in Hdis. unfold byte in Hb0.
    assert (Hb0' : byte b0) by exact Hb0.
    destruct (Z.ltb_spec b0 0x10).
    { rewrite (class_of b0 0 1 IDecoderControl Hb0' eq_refl ltac:(lia)) in Hdis.
      destruct (n =? 0); cbn [andb]; [|destruct (done_idle m _ _ _ _ _ HS1 Hdis); auto].
      destruct (b0 =? 0); [|destruct (done_idle m _ _ _ _ _ HS1 Hdis); auto].
      cbn [fst snd]. unfold serviceMode, call, modify, bind in Hdis. cbn [rxs app pending List.app] in Hdis.
      assert (s3 = Mk_st (set_service_mode true (rxs s1)) (e_hook E (app s1) (EServiceModeHook true)) (pending s1)) as -> by congruence.
      assert (e3 = [EServiceModeHook true]) as -> by congruence. split; [|reflexivity]. apply KS.
      destruct HS1 as (A & B). split; [intros a; cbn [app]; rewrite (mem_hook E m Hm); apply A|].
      unfold nregs, registers in *. unfold on_view. cbn [with_service n_view n_own n_consist n_logon n_conf n_selected n_assigned n_store n_known n_new v_service v_page v_last v_times rxs].
      destruct (rxs s1) as [? ? ? ? ? ? ? [] ?]. cbn in *. congruence. }
    destruct (Z.ltb_spec b0 0x20).
    { rewrite (class_of b0 1 2 IConsistControl Hb0' eq_refl ltac:(lia)) in Hdis.
      unfold consistControl in Hdis. cbn [at_ nth_error] in Hdis. rewrite bind_ret in Hdis.
      destruct t as [|b1 t]; [discriminate Hdis|]. inversion Hbt as [|? ? Hb1 _]; subst.
      cbn [at_ nth_error] in Hdis. rewrite bind_ret in Hdis. cbn [hd] in *. change (19 - 1) with 18 in *.
      pose proof (consist_byte b0 b1 Hb0' Hb1) as Eu. rewrite Eu in Hdis.
      assert (Hby : byte (b1 mod 128 + 128 * Z.b2z (Z.odd b0 || (128 <=? b1)))) by (rewrite <- Eu; apply u8_byte).
      destruct (sim_cvWrite E m able Hk 18 _ Hby _ _ _ _ _ HS1 Hdis Hra). auto. }
    destruct (Z.ltb_spec b0 0xE0).
    { cbn [fst snd]. cbn [fst snd] in Hra. unfold drives. cbv zeta.
      destruct (Z.eqb_spec b0 0x3F) as [->|N3F].
      { change (nibble_class (63 / 16)) with IAdvancedOperations in Hdis. destruct t as [|b1 t]; [discriminate Hdis|].
        split; [apply KS; refine (sim_quiet _ _ _ _ _ _ _ _ _ HS1 Hdis); [keeps_tac|quiet_tac Hm]|].
        inversion Hbt as [|? ? Hb1 _]; subst.
        rewrite (says_events E _ _ _ _ _ _ (dispatch_126 E s1 n b1 t Hb1) H0).
        rewrite (speed126_same v s1 n b1 HS1). apply told_all, tells_126. }
      destruct (Z.eqb_spec b0 0x3C) as [->|N3C].
      { change (nibble_class (60 / 16)) with IAdvancedOperations in Hdis. destruct t as [|b1 t]; [discriminate Hdis|].
        split; [apply KS; refine (sim_quiet _ _ _ _ _ _ _ _ _ HS1 Hdis); [keeps_tac|quiet_tac Hm]|].
        inversion Hbt as [|? ? Hb1 Hbr]; subst. cbn [hd tl].
        destruct (exists_last_dec t) as [->|(fs & c & ->)].
        - cbn [removelast firstn combined List.app].
          unfold advancedOperations in Hdis. cbn [at_ nth_error length] in Hdis. rewrite bind_ret in Hdis.
          cbn [Z.eqb Pos.eqb Nat.ltb Nat.leb when] in Hdis. rewrite !bind_ret in Hdis.
          pose proof (says_speed126 E (r_addrs (rxs s1)) n 60 b1 [] s1 Hb1 eq_refl) as Hsay. unfold ExecProofs.says in Hsay. rewrite Hsay in Hdis.
          assert (e3 = speed126_calls (r_addrs (rxs s1)) n b1) as -> by congruence.
          rewrite (speed126_same v s1 n b1 HS1). apply told_all, tells_126.
        - rewrite removelast_last.
          apply Forall_app in Hbr.
          rewrite (says_events E _ _ _ _ _ _ (dispatch_combined E s1 n b1 fs c Hb1 (proj1 Hbr)) H0).
          rewrite (speed126_same v s1 n b1 HS1). apply told_all. apply Forall_app. split; [apply tells_combined|apply tells_126]. }
      destruct (Z.eqb_spec b0 0x3E) as [->|N3E].
      { change (nibble_class (62 / 16)) with IAdvancedOperations in Hdis. destruct t as [|b1 t]; [discriminate Hdis|].
        split; [apply KS; refine (sim_quiet _ _ _ _ _ _ _ _ _ HS1 Hdis); [keeps_tac|quiet_tac Hm]|].
        unfold advancedOperations in Hdis. cbn [at_ nth_error] in Hdis. rewrite bind_ret in Hdis.
        cbn [Z.eqb Pos.eqb] in Hdis. rewrite bind_ret, bind_modify in Hdis. unfold when in Hdis. cbn [hd].
        rewrite testbit_bit in Hdis by lia. destruct (e_east_west E).
        - destruct (bit_of b1 6); unfold call in Hdis;
            [assert (e3 = [EEastWest n (Some true)]) as -> by congruence|assert (e3 = [EEastWest n (Some false)]) as -> by congruence]; reflexivity.
        - unfold ret in Hdis. assert (e3 = []) as -> by congruence. reflexivity. }
      destruct (Z.ltb_spec b0 0x40).
      { rewrite (class_of b0 2 4 IAdvancedOperations Hb0' eq_refl ltac:(lia)) in Hdis.
        unfold advancedOperations in Hdis. cbn [at_ nth_error] in Hdis. rewrite bind_ret in Hdis.
        rewrite (proj2 (Z.eqb_neq _ _) N3F), (proj2 (Z.eqb_neq _ _) N3C), (proj2 (Z.eqb_neq _ _) N3E) in Hdis.
        destruct (done_idle m _ _ _ _ _ HS1 Hdis); auto. }
      destruct (Z.ltb_spec b0 0x80).
      { rewrite (class_of b0 4 8 ISpeedDirection Hb0' eq_refl ltac:(lia)) in Hdis.
        split; [apply KS; refine (sim_quiet _ _ _ _ _ _ _ _ _ HS1 Hdis); [keeps_tac|quiet_tac Hm]|].
        rewrite (says_events E _ _ _ _ _ _ (dispatch_28 E s1 n b0 t ltac:(lia)) H0).
        rewrite (speed28_same v s1 _ n b0 HS1), (f0_same v s1 HS1). apply told_all, tells_28. }
      destruct (Z.ltb_spec b0 0xC0).
      { rewrite (class_of b0 8 12 IFunctionGroup Hb0' eq_refl ltac:(lia)) in Hdis.
        split; [apply KS; refine (sim_quiet _ _ _ _ _ _ _ _ _ HS1 Hdis); [keeps_tac|quiet_tac Hm]|].
        rewrite (says_events E _ _ _ _ _ _ (dispatch_group E s1 n b0 t ltac:(lia)) H0).
        rewrite (f0_same v s1 HS1). apply told_all, Forall_cons; [|apply Forall_nil].
        unfold function_group_call. destruct (b0 <? 160); [destruct (f0_exception (n_conf v))|destruct (b0 <? 176)]; reflexivity. }
      rewrite (class_of b0 12 14 IFeatureExpansion Hb0' eq_refl ltac:(lia)) in Hdis.
      split; [apply KS; refine (sim_quiet _ _ _ _ _ _ _ _ _ HS1 Hdis); [keeps_tac|quiet_tac Hm]|].
      destruct (Z.eqb_spec b0 0xDE) as [->|NDE].
      { destruct t as [|b1 t]; [discriminate Hdis|].
        inversion Hbt as [|? ? Hb1 _]; subst.
        rewrite (says_events E _ _ _ _ _ _ (dispatch_expansion E s1 n 222 b1 t Hb1 ltac:(auto)) H0). reflexivity. }
      destruct (Z.eqb_spec b0 0xDF) as [->|NDF].
      { destruct t as [|b1 t]; [discriminate Hdis|].
        inversion Hbt as [|? ? Hb1 _]; subst.
        rewrite (says_events E _ _ _ _ _ _ (dispatch_expansion E s1 n 223 b1 t Hb1 ltac:(auto)) H0). reflexivity. }
      unfold featureExpansion in Hdis. cbn [at_ nth_error] in Hdis. rewrite bind_ret in Hdis.
      rewrite (proj2 (Z.eqb_neq _ _) NDE), (proj2 (Z.eqb_neq _ _) NDF) in Hdis. apply plain_seen.
      match type of Hdis with ?f s1 = _ => assert (emits plain f) as Hpl; [emits_tac; reflexivity|exact (Hpl _ _ _ _ Hdis)] end. }
    destruct (negb (n =? 0) && (n =? aval (n_consist v))) eqn:Econ.
    { cbn [fst snd]. pose proof (sim_consist m v s1 HS1) as Hco.
      destruct (Z.ltb_spec b0 0xF0).
      - rewrite (class_of b0 14 15 ICvLong Hb0' eq_refl ltac:(lia)) in Hdis. unfold cvLong in Hdis.
        rewrite bind_get, Hco, Econ in Hdis. destruct (done_idle m _ _ _ _ _ HS1 Hdis); auto.
      - rewrite (class_of b0 15 16 ICvShort Hb0' eq_refl ltac:(lia)) in Hdis. unfold cvShort in Hdis.
        rewrite bind_get, Hco, Econ in Hdis. destruct (done_idle m _ _ _ _ _ HS1 Hdis); auto. }
    cbv zeta in Hra |- *.
    destruct (Z.ltb_spec b0 0xF0).
    - rewrite (class_of b0 14 15 ICvLong Hb0' eq_refl ltac:(lia)) in Hdis.
      pose proof (sim_cvLong E m able Hk n b0 t p q s1 v tt s3 e3 Hd Hbb Econ HS1 Hdis) as K. cbv zeta in K.
      rewrite Hsv in K. cbn [andb] in K. destruct (K Hra). auto.
    - rewrite (class_of b0 15 16 ICvShort Hb0' eq_refl ltac:(lia)) in Hdis.
      destruct (sim_cvShort E m able Hk n b0 t p q s1 v tt s3 e3 Hd Hbb Econ HS1 Hdis Hra). auto.
  Qed.

  Lemma sim_serve : forall v s p q u s' es, Forall byte p -> (3 <= length p)%nat -> r_deque (rxs s) = p :: q ->
    Sim v s -> v_service (n_view v) = true -> byte (v_page (n_view v)) -> executeService E s = Ok (u, s', es) ->
    Forall (allowed able) (snd (serve p v)) -> Sim (fst (serve p v)) s' /\ seen_in es = snd (serve p v).
  Proof.
    intros v s p q u s' es Hb Hl Hd HS Hsv Hpg H Hr. unfold executeService in H. rewrite bind_get, Hd, bind_ret in H.
    destruct p as [|b0 p]; [cbn in Hl; lia|]. inversion Hb as [|? ? Hb0 Hbp]; subst.
    cbn [at_ nth_error] in H. rewrite bind_ret in H.
    apply bind_inv in H. destruct H as ([] & s3 & e3 & e4 & E1 & E2 & ->).
    unfold ret in E2. assert (s' = s3) as -> by congruence. assert (e4 = []) as -> by congruence. rewrite app_nil_r. clear E2.
    rewrite land_F0 in E1 by exact Hb0. unfold serve in *. cbn [nth] in Hr |- *. unfold byte in Hb0.
    destruct (b0 =? 0); [exact (done_idle m _ _ _ _ _ HS E1)|].
    replace (16 * (b0 / 16) =? 112) with (b0 / 16 =? 7) in E1
      by (destruct (Z.eqb_spec (16 * (b0 / 16)) 112), (Z.eqb_spec (b0 / 16) 7); lia).
    destruct (negb (b0 / 16 =? 7)).
    { cbn [fst snd]. unfold serviceMode, call, modify, bind in E1. cbn [rxs app pending List.app] in E1.
      assert (s3 = Mk_st (set_service_mode false (rxs s)) (e_hook E (app s) (EServiceModeHook false)) (pending s)) as -> by congruence.
      assert (e3 = [EServiceModeHook false]) as -> by congruence. split; [|reflexivity].
      destruct HS as (A & B). split; [intros a; cbn [app]; rewrite (mem_hook E m Hm); apply A|].
      unfold nregs, registers in *. unfold on_view. cbn [with_service n_view n_own n_consist n_logon n_conf n_selected n_assigned n_store n_known n_new v_service v_page v_last v_times rxs].
      destruct (rxs s) as [? ? ? ? ? ? ? [] ?]. cbn in *. congruence. }
    destruct (Nat.eqb_spec (length (b0 :: p)) 3) as [L3|_].
    { destruct p as [|b1 p]; [discriminate L3|]. inversion Hbp as [|? ? Hb1 _]; subst. cbn [nth] in Hr |- *.
      exact (sim_register E m able Hk b0 b1 p s v tt s3 e3 Hb0 Hb1 Hpg HS Hsv E1 Hr). }
    destruct (Nat.eqb_spec (length (b0 :: p)) 4) as [L4|_]; [|exact (done_idle m _ _ _ _ _ HS E1)].
    pose proof (sim_cvLong E m able Hk 0 b0 p (b0 :: p) q s v tt s3 e3 Hd Hb eq_refl HS E1) as K. cbv zeta in K.
    rewrite Hsv in K. cbn [andb] in K. cbv zeta in Hr |- *.
    set (v1 := on_view (count (b0 :: p)) v) in *.
    destruct (Nat.eqb_spec (v_times (n_view v1)) 2) as [E2|N2]; cbn [negb] in K.
    - rewrite E2, due_second in K. exact (K Hr).
    - exact (K Hr).
  Qed.


  Lemma store_view : forall n, v_service (n_view (fst (store_all n))) = v_service (n_view n) /\ v_page (n_view (fst (store_all n))) = v_page (n_view n).
  Proof. intros n. unfold store_all. destruct (n_store n); split; reflexivity. Qed.

  Lemma sim_execute : forall v s b s' es, reached E s -> Sim v s -> byte (v_page (n_view v)) -> execute E s = Ok (b, s', es) ->
    (s' = s /\ es = [] /\ forall p q, ~ ready s p q) \/
    exists p q, ready s p q /\
      (Forall (allowed able) (snd (execution (e_east_west E) p v)) ->
       Sim (fst (execution (e_east_west E) p v)) s' /\ seen_in es = snd (execution (e_east_west E) p v)).
  Proof.
    intros v s b s' es Hre HS Hpg H.
    destruct (execute_cases E s b s' es Hre H) as [(-> & -> & -> & Hno)|(p & q & _ & _ & _ & _ & Hr & _)]; [left; auto|].
    right. exists p, q. split; [exact Hr|]. intros Hra.
    assert (sane (rxs s)) as Hsane by (destruct Hre as (i & os & e & Hrun); exact (sane_run E _ _ _ _ Hrun)).
    destruct (reached_ready E s p q Hre Hr) as [Hb Hl].
    destruct (execute_housekeeping E s p q Hr) as (s1 & e1 & Hh & Hhk & Hp & Hst & He).
    unfold execution in *. destruct (store_view v) as [Vs Vp].
    pose proof (sim_housekeeping v s tt s1 e1 Hsane HS Hh) as HSt.
    destruct (store_all v) as [v1 xs] eqn:Ev. cbn [fst snd] in *.
    assert (Hd : r_deque (rxs s1) = p :: q) by (unfold hk in Hhk; destruct Hr; congruence).
    destruct (if v_service (n_view v1) then serve p v1 else operate (e_east_west E) p v1) as [v2 ys] eqn:E2.
    cbn [fst snd] in *. apply Forall_app in Hra. destruct Hra as [Hr1 Hr2]. destruct (HSt Hr1) as [HS1 W1].
    rewrite He in H. destruct (executeCommand E s1) as [[[b2 s2] e2]|r] eqn:Ec; [|discriminate].
    assert (s' = pop q s2) as -> by congruence. assert (es = e1 ++ e2) as -> by congruence.
    rewrite seen_app, W1.
    enough (Sim v2 s2 /\ seen_in e2 = ys) as [K1 K2] by (split; [apply Sim_pop; exact K1|rewrite K2; reflexivity]).
    destruct (v_service (n_view v1)) eqn:Esv.
    - pose proof Ec as Ec'. unfold executeCommand in Ec'. rewrite bind_get, (sim_mode m v1 s1 HS1), Esv in Ec'.
      pose proof (sim_serve v1 s1 p q b2 s2 e2 Hb Hl Hd HS1 Esv ltac:(rewrite Vp; exact Hpg) Ec') as K. rewrite E2 in K. exact (K Hr2).
    - pose proof (sim_operate v1 s1 p q b2 s2 e2 Hb Hl Hd HS1 Esv Ec) as K. rewrite E2 in K. exact (K Hr2).
  Qed.
End Execute.
