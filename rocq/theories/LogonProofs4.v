(** The queue of logon answers; storing *)
From Verif Require Import Prelude Address Instruction Packets Backoff RxState Rx ZBits RxLogic RxInv SpecCodec SpecRx RxBitProofs
  SpecExec ExecProofs SpecConf SpecCv SaneProofs SpecLogon LogonProofs LogonProofs2 LogonProofs3.

Section Queue.
  Context {I : Type} (E : Env I).
  Implicit Types s : st I.

  (** ** One answer at most, and no failure if there is none *)
  Definition fine {A} (m : M (I := I) A) : Prop := forall s, sane (rxs s) -> (length (logon_answers s) <= 1)%nat ->
    match m s with
    | Ok (_, s', _) => (length (logon_answers s') <= 1)%nat
    | UB r => r = AssertFailed -> logon_answers s <> []
    end.
  Lemma fine_ret : forall A (a : A), fine (ret a).
  Proof. intros A a s _ H. exact H. Qed.
  Lemma fine_lift : forall A B (x : res A) (k : A -> M B), x <> UB AssertFailed -> (forall a, x = Ok a -> fine (k a)) -> fine (bind (lift x) k).
  Proof.
    intros A B [a|r] k Hx Hk s Hs Hl.
    - rewrite bind_lift. exact (Hk a eq_refl s Hs Hl).
    - cbn. intros ->. exfalso. apply Hx. reflexivity.
  Qed.
  Lemma fine_at : forall B bs i (k : Z -> M B), (forall x, nth_error bs i = Some x -> fine (k x)) -> fine (bind (at_ bs i) k).
  Proof.
    intros B bs i k Hk s Hs Hl. destruct (nth_error bs i) as [x|] eqn:En.
    - rewrite (bind_at _ bs i x k s En). exact (Hk x eq_refl s Hs Hl).
    - unfold bind, at_. rewrite En. cbn. discriminate.
  Qed.
  Lemma fine_true : forall (m : M unit), fine m -> fine (bind m (fun _ => ret true)).
  Proof.
    intros m Hm s Hs Hl. specialize (Hm s Hs Hl). unfold bind. destruct (m s) as [[[u s1] e1]|r]; [|exact Hm]. cbn. exact Hm.
  Qed.
  Lemma fine_select : forall id, fine (logonSelect (I := I) id).
  Proof.
    intros id s Hs Hl. destruct (select_run s id Hs) as (cs & _ & ->). destruct (_ && _); [|exact Hl].
    destruct (logon_answers s) eqn:El; [cbn; lia|]. intros _. discriminate.
  Qed.
  Lemma fine_assign : forall id a ow, fine (logonAssign (I := I) id a ow).
  Proof.
    intros id a ow s Hs Hl. destruct (assign_run s id a ow) as (cs & _ & ->). destruct (_ && _); [|exact Hl].
    destruct (logon_answers s) eqn:El; [cbn; lia|]. intros _. discriminate.
  Qed.
  Lemma fine_answering : forall g cs s, (length (logon_answers s) <= 1)%nat ->
    match answering E g cs s with
    | Ok (_, s', _) => (length (logon_answers s') <= 1)%nat
    | UB r => r = AssertFailed -> logon_answers s <> []
    end.
  Proof.
    intros g cs s Hl. unfold answering. cbv zeta. unfold logon_answers in *.
    destruct g; try exact Hl; (destruct (bo_count _ =? 0); [|exact Hl]);
      (destruct (e_rand E (app s)) as [n i]; destruct (logon_deque (r_logon (rxs s))); [cbn; lia|intros _; discriminate]).
  Qed.
  Lemma fine_enable : forall g cid sid, byte sid -> fine (logonEnable E g cid sid).
  Proof.
    intros g cid sid Hb s Hs Hl. destruct (enable_run E s g cid sid Hs Hb) as (cs & _ & ->).
    destruct (_ || _); [exact Hl|]. destruct (recognized_b s cid sid).
    - destruct (e_readCv E (app s) 65299) as [x i1]. destruct (e_readCv E i1 65300) as [y i2]. exact Hl.
    - match goal with |- context [answering E g cs ?x] => pose proof (fine_answering g cs x) as H;
        assert (logon_answers x = logon_answers s) as Hx by (destruct (cid =? known_station s); reflexivity) end.
      rewrite Hx in H. exact (H Hl).
  Qed.
  Lemma decode_oob : forall bs, decode_address bs <> UB AssertFailed.
  Proof.
    intros [|b r]; [discriminate|]. cbn [decode_address].
    repeat match goal with |- (if ?c then _ else _) <> _ => destruct c end; try discriminate. destruct r; discriminate.
  Qed.
  Lemma fine_logon : forall bs, Forall byte bs -> fine (executeAutomaticLogon E (Addr 254 ATLogon false) bs).
  Proof.
    intros bs Hb. unfold executeAutomaticLogon. cbn [aval]. change (negb (254 =? 254)) with false. cbn iota.
    assert (forall n, subspan4 bs n <> UB AssertFailed) as Hsub by (intros n; unfold subspan4; destruct (_ <=? _)%nat; discriminate).
    apply fine_at. intros b0 _. apply fine_true.
    destruct (_ =? 0xD0); [apply fine_lift; [apply Hsub|intros d _; apply fine_select]|].
    destruct (_ =? 0xE0).
    { apply fine_lift; [apply Hsub|intros d _]. apply fine_at. intros b6 _. cbv zeta.
      destruct (_ <? 0x28); [apply fine_lift; [apply decode_oob|intros a _; apply fine_assign]|].
      destruct (_ <? 0x38); [apply fine_ret|].
      destruct (_ <? 0x39); [apply fine_lift; [apply decode_oob|intros a _; apply fine_assign]|apply fine_ret]. }
    destruct (_ =? 0xF0); [|apply fine_ret].
    apply fine_lift; [destruct (skipn 1 bs) as [|? [|? ?]]; discriminate|intros cid _].
    apply fine_at. intros sid Hn. apply fine_enable. exact (proj1 (Forall_forall byte bs) Hb sid (nth_error_In _ _ Hn)).
  Qed.

  (** ** Reception *)
  Lemma keeps_received : forall a bs, keeps (fun r => received (r_addrs r)) (executeAutomaticLogon E a bs).
  Proof. intros. keeps_tac. Qed.

  Lemma receive_answers : forall l s t, Rl l s -> sane (rxs s) -> (length (logon_answers s) <= 1)%nat ->
    (forall p, completed (OReceive t) l = Some p -> hears E s t p) ->
    match receive E t s with
    | UB r => r = AssertFailed -> logon_answers s <> []
    | Ok (_, s', _) => (length (logon_answers s') <= 1)%nat /\
        match completed (OReceive t) l with
        | Some p => if is_logon p then atyp (received (r_addrs (rxs s'))) = ATLogon else logon_answers s' = logon_answers s
        | None => logon_answers s' = logon_answers s
        end
    end.
  Proof.
    intros l s t HR Hs Hl Hh. destruct (completed (OReceive t) l) as [p|] eqn:Ec.
    - destruct (is_logon p) eqn:Eg.
      + destruct (logon_receive E s t p (Hh p eq_refl) Eg) as (_ & Hb & _ & f & Hf & ->).
        destruct (is_logon_254 _ Eg) as (r & Hp & Ha). rewrite Ha.
        destruct (undamaged_b p); cbn [closing].
        * assert (Forall byte (tl p)) as Hb1 by (rewrite Hp in *; inversion Hb; assumption).
          pose proof (fine_logon (tl p) Hb1 (entered f p s) (entered_sane f p s Hf Hb Hs) Hl) as K.
          destruct (executeAutomaticLogon E (Addr 254 ATLogon false) (tl p) (entered f p s)) as [[[u s2] es]|r0] eqn:Ex; [|exact K].
          cbn [closing]. split; [exact K|]. apply keeps_received in Ex. cbn beta in Ex.
          change (received (r_addrs (rxs (with_fsm (reset_fsm (r_fsm (rxs s2))) s2)))) with (received (r_addrs (rxs s2))).
          rewrite Ex. change (received (r_addrs (rxs (entered f p s)))) with (address_of p). rewrite Ha. reflexivity.
        * split; [exact Hl|]. change (atyp (address_of p) = ATLogon). rewrite Ha. reflexivity.
      + destruct (receive_ordinary E l s t p HR Ec Eg) as (_ & _ & f & _ & ->). split; [exact Hl|reflexivity].
    - destruct (receive_nothing E l s t HR Ec) as [->|(f & c & ad & -> & _)]; [discriminate|]. split; [exact Hl|reflexivity].
  Qed.

  (** ** Other calls *)
  Definition logon_view (r : rx) := (logon_deque (r_logon r), received (r_addrs r)).
  Lemma view_dyn : forall ds, keeps logon_view (@dyn_all I ds).
  Proof. induction ds as [|d ds IH]; [keeps_tac|]. apply keeps_bind; [keeps_tac|intros _; exact IH]. Qed.
  Lemma view_step : forall o, is_receive o = false -> o <> OBiDi2 -> keeps logon_view (step E o).
  Proof.
    intros o Hr Hb. destruct o; cbn [step]; try discriminate; try contradiction.
    - keeps_tac.
    - keeps_tac.
    - keeps_tac.
    - keeps_tac.
    - apply keeps_bind; [|intro; apply keeps_ret]. unfold datagram. apply keeps_bind; [apply keeps_get|intros r].
      apply keeps_bind; [keeps_tac|intros _]. apply keeps_bind; [apply keeps_get|intros r']. destruct (block_dyn _); [apply keeps_ret|apply view_dyn].
    - apply keeps_bind; [|intro; apply keeps_ret]. unfold biDiChannel1. apply keeps_bind; [apply keeps_get|intros r].
      destruct (atyp _); try (keeps_tac; fail). unfold appLogon. change (1 =? 1) with true. cbn iota. keeps_tac.
    - intros s b s' es H. destruct (nth_error (pending s) i) as [c|]; [|inversion H; subst; reflexivity].
      assert (keeps logon_view (bind (run_cb E c v) (fun _ => ret false))) as K by keeps_tac. exact (K _ _ _ _ H).
  Qed.

  Lemma biDi2_answers : forall s u s' es, biDiChannel2 E s = Ok (u, s', es) ->
    received (r_addrs (rxs s')) = received (r_addrs (rxs s)) /\
    (if atype_eqb (atyp (received (r_addrs (rxs s)))) ATLogon then logon_answers s' = tl (logon_answers s)
     else logon_answers s' = logon_answers s).
  Proof.
    intros s u s' es H. assert (keeps (fun r => received (r_addrs r)) (biDiChannel2 E)) as K by keeps_tac.
    split; [exact (K _ _ _ _ H)|]. clear K. unfold biDiChannel2 in H. unfold bind at 1 in H. cbn [get] in H. cbv zeta in H.
    destruct (atyp (received (r_addrs (rxs s)))) eqn:Et; cbn [atype_eqb];
      try match type of H with context [appLogon] => fail 1 | _ =>
        match type of H with match ?f s with _ => _ end = _ =>
          assert (keeps (fun r => logon_deque (r_logon r)) f) as K by keeps_tac;
          destruct (f s) as [[[x s1] e1]|] eqn:Ef; [|discriminate]; inversion H; subst; exact (K _ _ _ _ Ef) end end.
    unfold appLogon in H. unfold bind at 1 in H. cbn [get] in H. unfold logon_answers.
    destruct (logon_deque (r_logon (rxs s))) as [|d q] eqn:Ed; [inversion H; subst; exact Ed|].
    change (2 =? 1) with false in H. cbn iota in H. unfold bind, modify, get, call in H. cbn in H. inversion H; subst. reflexivity.
  Qed.

  (** ** All histories *)
  Definition waiting (os : list op) s : Prop := exists os1 t os2 p, os = os1 ++ OReceive t :: os2 /\
    completed (OReceive t) (listen_all os1 listener0) = Some p /\ is_logon p = true /\
    (forall os3 os4, os2 = os3 ++ OBiDi2 :: os4 -> existsb is_receive os3 = true) /\
    (existsb is_receive os2 = false -> atyp (received (r_addrs (rxs s))) = ATLogon).
  Definition queued (os : list op) s : Prop :=
    (length (logon_answers s) <= 1)%nat /\ (logon_answers s = [] \/ waiting os s).

  Lemma split_last : forall (a : list op) o b x c, a ++ [o] = b ++ x :: c ->
    (c = [] /\ a = b /\ o = x) \/ exists c', c = c' ++ [o] /\ a = b ++ x :: c'.
  Proof.
    intros a o b x c H. destruct (exists_last (l := x :: c)) as (c' & y & Hc); [discriminate|].
    rewrite Hc, app_assoc in H. apply app_inj_tail in H. destruct H as [-> ->].
    destruct c' as [|x' c'].
    - left. cbn in Hc. inversion Hc; subst. rewrite app_nil_r. auto.
    - right. cbn in Hc. inversion Hc; subst. eauto.
  Qed.

  Lemma waiting_more : forall os s s' o, waiting os s -> is_receive o = false -> o <> OBiDi2 ->
    received (r_addrs (rxs s')) = received (r_addrs (rxs s)) -> waiting (os ++ [o]) s'.
  Proof.
    intros os s s' o (os1 & t & os2 & p & -> & Hc & Hp & Hn & Ht) Hr Ho Hx.
    exists os1, t, (os2 ++ [o]), p. split; [rewrite <- app_assoc; reflexivity|]. split; [exact Hc|]. split; [exact Hp|]. split.
    - intros os3 os4 H. apply split_last in H. destruct H as [(_ & _ & ->)|(c & _ & ->)]; [contradiction|]. exact (Hn _ _ eq_refl).
    - rewrite existsb_app. cbn [existsb]. rewrite Hr, !orb_false_r, Hx. exact Ht.
  Qed.
  Lemma waiting_receive : forall os s s' t, waiting os s -> waiting (os ++ [OReceive t]) s'.
  Proof.
    intros os s s' u (os1 & t & os2 & p & -> & Hc & Hp & Hn & Ht).
    exists os1, t, (os2 ++ [OReceive u]), p. split; [rewrite <- app_assoc; reflexivity|]. split; [exact Hc|]. split; [exact Hp|]. split.
    - intros os3 os4 H. apply split_last in H. destruct H as [(_ & _ & H)|(c & _ & ->)]; [discriminate|]. exact (Hn _ _ eq_refl).
    - rewrite existsb_app. cbn [existsb is_receive]. rewrite orb_true_r. discriminate.
  Qed.

  Lemma queued_step : forall i os s e1 o b s' e2, run E os (st0 i) = Ok (tt, s, e1) -> queued os s ->
    step E o s = Ok (b, s', e2) -> queued (os ++ [o]) s'.
  Proof.
    intros i os s e1 o b s' e2 Hrun [Hl Hq] H.
    pose proof (run_refines E _ _ _ _ _ (Rl0 i) Hrun) as HR. pose proof (sane_run E _ _ _ _ Hrun) as Hs.
    destruct (is_receive o) eqn:Er.
    - destruct o; try discriminate. cbn [step] in H. apply bind_inv in H. destruct H as (u & s1 & e3 & e4 & H & H2 & _). inversion H2; subst; clear H2.
      pose proof (receive_answers _ s time HR Hs Hl) as K. rewrite H in K.
      destruct K as [K1 K2]; [intros p Hp; exists i, os, e1; auto|]. split; [exact K1|].
      assert (Keep : logon_answers s' = logon_answers s -> logon_answers s' = [] \/ waiting (os ++ [OReceive time]) s').
      { intros ->. destruct Hq as [Hq|Hq]; [left; exact Hq|right; exact (waiting_receive _ _ _ _ Hq)]. }
      destruct (completed (OReceive time) (listen_all os listener0)) as [p|] eqn:Ec; [|exact (Keep K2)].
      destruct (is_logon p) eqn:Ep; [|exact (Keep K2)]. right. exists os, time, [], p. repeat split; auto.
      intros os3 os4 X. destruct os3; discriminate.
    - assert (o = OBiDi2 \/ o <> OBiDi2) as [->|Ho] by (destruct o; auto; right; discriminate).
      + cbn [step] in H. apply bind_inv in H. destruct H as (u & s1 & e3 & e4 & H & H2 & _). inversion H2; subst; clear H2.
        apply biDi2_answers in H. destruct H as [Hx H].
        assert (Hlt : (length (tl (logon_answers s)) <= 1)%nat) by (destruct (logon_answers s); cbn in *; lia).
        split; [destruct (atype_eqb _ _); rewrite H; assumption|].
        destruct Hq as [Hq|(os1 & t & os2 & p & -> & Hc & Hp & Hn & Ht)].
        { left. destruct (atype_eqb _ _); rewrite H, Hq; reflexivity. }
        destruct (existsb is_receive os2) eqn:Eo.
        * right. exists os1, t, (os2 ++ [OBiDi2]), p. split; [rewrite <- app_assoc; reflexivity|]. split; [exact Hc|]. split; [exact Hp|]. split.
          -- intros os3 os4 X. apply split_last in X. destruct X as [(_ & -> & _)|(c & _ & ->)]; [exact Eo|exact (Hn _ _ eq_refl)].
          -- rewrite existsb_app, Eo. discriminate.
        * left. rewrite (Ht eq_refl) in H. cbn [atype_eqb] in H. rewrite H. destruct (logon_answers s) as [|x [|]]; cbn in *; try reflexivity; lia.
      + pose proof (view_step o Er Ho _ _ _ _ H) as K. unfold logon_view in K.
        assert (logon_answers s' = logon_answers s) as K1 by (unfold logon_answers; congruence).
        assert (received (r_addrs (rxs s')) = received (r_addrs (rxs s))) as K2 by congruence.
        split; [rewrite K1; exact Hl|]. rewrite K1. destruct Hq as [Hq|Hq]; [left; exact Hq|right]. exact (waiting_more _ _ _ _ Hq Er Ho K2).
  Qed.

  Lemma run_snoc : forall os o s s' es, run E (os ++ [o]) s = Ok (tt, s', es) ->
    exists s1 e1 b e2, run E os s = Ok (tt, s1, e1) /\ step E o s1 = Ok (b, s', e2).
  Proof.
    induction os as [|a os IH]; intros o s s' es H.
    - cbn [List.app run] in H. apply bind_inv in H. destruct H as (b & s1 & e1 & e2 & H & H2 & _). inversion H2; subst.
      exists s, [], b, e1. split; [reflexivity|exact H].
    - change ((a :: os) ++ [o]) with (a :: (os ++ [o])) in H. cbn [run] in H. apply bind_inv in H.
      destruct H as (b & s1 & e1 & e2 & H & H2 & _). apply IH in H2. destruct H2 as (s2 & e3 & b2 & e4 & H2 & H3).
      exists s2, (e1 ++ e3), b2, e4. split; [|exact H3]. cbn [run]. unfold bind. rewrite H, H2. reflexivity.
  Qed.

  Lemma queued_run : forall i os s es, run E os (st0 i) = Ok (tt, s, es) -> queued os s.
  Proof.
    intros i os. induction os as [|o os IH] using rev_ind; intros s es H.
    - inversion H; subst. split; [cbn; lia|left; reflexivity].
    - apply run_snoc in H. destruct H as (s1 & e1 & b & e2 & H & H2). exact (queued_step _ _ _ _ _ _ _ _ H (IH _ _ H) H2).
  Qed.

  Lemma one_answer : forall i os s es, run E os (st0 i) = Ok (tt, s, es) -> (length (logon_answers s) <= 1)%nat.
  Proof. intros i os s es H. exact (proj1 (queued_run _ _ _ _ H)). Qed.

  Lemma served_empty : forall i os s es, run E os (st0 i) = Ok (tt, s, es) -> served os -> logon_answers s = [].
  Proof.
    intros i os s es H Hv. destruct (queued_run _ _ _ _ H) as [_ [Hq|(os1 & t & os2 & p & Ho & Hc & Hp & Hn & _)]]; [exact Hq|].
    destruct (Hv os1 t os2 p Ho Hc Hp) as (os3 & os4 & Hs & Hx). rewrite (Hn _ _ Hs) in Hx. discriminate.
  Qed.

  Lemma fails_full : forall i os s es t, run E os (st0 i) = Ok (tt, s, es) -> receive E t s = UB AssertFailed -> logon_answers s <> [].
  Proof.
    intros i os s es t H Hu. pose proof (run_refines E _ _ _ _ _ (Rl0 i) H) as HR. pose proof (sane_run E _ _ _ _ H) as Hs.
    pose proof (receive_answers _ s t HR Hs (one_answer _ _ _ _ H)) as K. rewrite Hu in K. apply K; [|reflexivity].
    intros p Hp. exists i, os, es. auto.
  Qed.

  Lemma served_fine : forall i os s es t, run E os (st0 i) = Ok (tt, s, es) -> served os -> receive E t s <> UB AssertFailed.
  Proof. intros i os s es t H Hv Hu. exact (fails_full _ _ _ _ _ H Hu (served_empty _ _ _ _ H Hv)). Qed.
End Queue.

(** ** Storing *)
Section Store.
  Context {I : Type} (E : Env I).
  Implicit Types s : st I.

  Lemma same_spec : forall a b, addr_eqb a b = true <-> same_address a b.
  Proof.
    intros [n k r] [m l q]. unfold addr_eqb, same_address. cbn [aval atyp In].
    destruct (is_loco_type k && is_loco_type l) eqn:El.
    - rewrite Z.eqb_eq. split; [|intros [H _]; exact H]. intros ->. split; [reflexivity|right].
      destruct k, l; try discriminate; auto.
    - rewrite andb_true_iff, Z.eqb_eq. split.
      + intros [-> H]. split; [reflexivity|left]. destruct k, l; try discriminate; reflexivity.
      + intros [-> H]. split; [reflexivity|]. destruct H as [->|[[H|[H|[]]] [H'|[H'|[]]]]].
        * destruct l; reflexivity.
        * subst. discriminate.
        * subst. discriminate.
        * subst. discriminate.
        * subst. discriminate.
  Qed.

  Lemma store_run : forall s, sane (rxs s) -> to_store s = true -> exists s1 e1, logonStore E s = Ok (tt, s1, e1) /\
    to_store s1 = false /\ known_station s1 = fst (new_station s) /\ known_session s1 = snd (new_station s) /\
    accesses e1 = (if addr_eqb (primary (r_addrs (rxs s))) (logon (r_addrs (rxs s))) then stores_own (aval (primary (r_addrs (rxs s)))) else []) ++
      stores_logon (cid_back (r_logon (rxs s))) (sid_back (r_logon (rxs s))) (aval (logon (r_addrs (rxs s)))).
  Proof.
    intros s Hs Ht. open_sane Hs. unfold to_store in Ht. unfold logonStore. unfold bind at 1. cbn [get]. rewrite Ht. cbn [negb]. cbv zeta.
    set (n := aval (primary (r_addrs (rxs s)))) in *. set (l := aval (logon (r_addrs (rxs s)))) in *. set (c := cid_back (r_logon (rxs s))) in *.
    assert (u8 (Z.lor 0xC0 (Z.shiftr n 8)) = 192 + n / 256) as ->.
    { rewrite shiftr_div by lia. change (2 ^ 8) with 256. change 0xC0 with (3 * 2 ^ 6). rewrite lor_add by lia. unfold u8. rewrite Z.mod_small; lia. }
    assert (u8 (Z.shiftr c 8) = c / 256) as -> by (rewrite shiftr_div by lia; change (2 ^ 8) with 256; unfold u8; rewrite Z.mod_small; lia).
    assert (u8 (Z.shiftr l 8) = l / 256) as -> by (rewrite shiftr_div by lia; change (2 ^ 8) with 256; unfold u8; rewrite Z.mod_small; lia).
    change (u8 n) with (n mod 256). change (u8 c) with (c mod 256). change (u8 l) with (l mod 256).
    unfold when, bind, modify, writeCv, writeCvBit, ret.
    destruct (addr_eqb (primary (r_addrs (rxs s))) (logon (r_addrs (rxs s)))); cbn [rxs app pending];
      repeat match goal with |- context [let '(v, i) := ?x in _] => destruct x as [? ?]; cbn [rxs app pending] end;
      (do 2 eexists; split; [reflexivity|]); repeat split; reflexivity.
  Qed.

  Lemma flag_adr : keeps (fun r => (r_addrs r, r_logon r)) (@adr I). Proof. keeps_tac. Qed.
  Lemma flag_qos : keeps r_logon (@updateQos I). Proof. keeps_tac. Qed.
  Lemma flag_tp : keeps r_logon (updateTimepoints E). Proof. keeps_tac. Qed.
  Definition flagged (r : rx) := (logon_store (r_logon r), cid_front (r_logon r), sid_front (r_logon r)).

  Lemma execute_stores : forall s p q b s' es, reached E s -> ready s p q -> to_store s = true -> execute E s = Ok (b, s', es) ->
    to_store s' = false /\ exists e1 e2, es = e1 ++ e2 /\
      (same_address (primary (r_addrs (rxs s))) (logon (r_addrs (rxs s))) ->
         accesses e1 = stores_own (aval (primary (r_addrs (rxs s)))) ++
           stores_logon (fst (new_station s)) (snd (new_station s)) (aval (logon (r_addrs (rxs s))))) /\
      (~ same_address (primary (r_addrs (rxs s))) (logon (r_addrs (rxs s))) ->
         accesses e1 = stores_logon (fst (new_station s)) (snd (new_station s)) (aval (logon (r_addrs (rxs s))))).
  Proof.
    intros s p q b s' es (i & os & es0 & Hrun) [Hp Hd] Ht H. pose proof (sane_run E _ _ _ _ Hrun) as Hs.
    unfold execute in H. apply bind_inv in H. destruct H as (r & s0 & e1 & e0 & Hg & H & ->). inversion Hg; subst; clear Hg.
    rewrite Hp, Hd in H. cbn [length Nat.eqb orb] in H.
    apply bind_inv in H. destruct H as ([] & s1 & e1 & e2 & H1 & H & ->).
    destruct (adr_ok s0) as (s1' & H1' & _). assert (e1 = []) as -> by congruence. clear s1' H1'.
    assert (sane (rxs s1)) as Hs1 by exact (sane_adr _ _ _ _ H1 Hs).
    pose proof (flag_adr _ _ _ _ H1) as Y. cbn beta in Y. assert (r_addrs (rxs s1) = r_addrs (rxs s0)) as Ya by congruence.
    assert (r_logon (rxs s1) = r_logon (rxs s0)) as Yl by congruence.
    assert (to_store s1 = true) as Ht1 by (unfold to_store in *; rewrite Yl; exact Ht).
    destruct (store_run s1 Hs1 Ht1) as (s2 & e3 & H2 & Hf & _ & _ & Ha). rewrite Ya, Yl in Ha.
    apply bind_inv in H. destruct H as ([] & s3 & e4 & e5 & H3 & H & ->). assert (e4 = e3 /\ s3 = s2) as [-> ->] by (split; congruence).
    split; [rewrite <- Hf; assert (keeps (fun r => logon_store (r_logon r)) (bind updateQos (fun _ => bind (updateTimepoints E)
        (fun _ => bind (executeCommand E) (fun b => bind popFront (fun _ => ret b)))))) as K by keeps_tac; exact (K _ _ _ _ H)|].
    exists e3, e5. split; [reflexivity|]. cbn [new_station fst snd].
    split; intros Hsame.
    - apply same_spec in Hsame. rewrite Hsame in Ha. exact Ha.
    - destruct (addr_eqb _ _) eqn:Ee; [apply same_spec in Ee; contradiction|]. exact Ha.
  Qed.
End Store.
