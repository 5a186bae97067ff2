(** What a logon packet does *)
From Verif Require Import Prelude Address Packets Backoff RxState Rx ZBits RxLogic RxInv
  SpecCodec CodecProofs2 SpecRx RxBitProofs SpecExec ExecProofs SaneProofs SpecLogon LogonProofs LogonProofs2.

Lemma says_logon : forall p m, says p m -> is_logon p = true /\ address_of p = Addr 254 ATLogon false.
Proof. intros p m H. destruct H; split; reflexivity. Qed.

Ltac frame_of g := refine (took_entered _ _ _ g _ _ _); [assumption|intros [? ? ? ? ? ? ? ? ?]; cbn; repeat split; reflexivity].

Section Effects.
  Context {I : Type} (E : Env I).
  Implicit Types s : st I.

  (** Nothing but the reception *)
  Lemma quiet : forall f p s, f_packet f = p -> exists s',
    closing (Ok (true, entered f p s, [])) = Ok (tt, s', []) /\ took s p s' /\ unmoved s s'.
  Proof.
    intros f p s Hf. eexists. split; [reflexivity|]. split; [exact (took_entered f p s (fun r => r) (app s) Hf ltac:(cbn; repeat split; reflexivity))|].
    unfold unmoved. cbn. repeat split; reflexivity.
  Qed.

  Lemma entered_sane : forall f p s, f_packet f = p -> Forall byte p -> sane (rxs s) -> sane (rxs (entered f p s)).
  Proof.
    intros f p s Hf Hp Hs. open_sane Hs. close_sane. cbn [entered rxs r_fsm upd_f_packet_end f_packet]. rewrite Hf. exact Hp.
  Qed.

  Lemma damaged_ignored : forall s t p, hears E s t p -> is_logon p = true -> ~ undamaged p ->
    exists s', receive E t s = Ok (tt, s', []) /\ took s p s' /\ unmoved s s'.
  Proof.
    intros s t p Hh Hl Hu. destruct (logon_receive E s t p Hh Hl) as (_ & _ & _ & f & Hf & ->).
    destruct (undamaged_b p) eqn:Eu; [apply undamaged_spec in Eu; contradiction|]. apply quiet. exact Hf.
  Qed.

  Lemma intact : forall s t p m, hears E s t p -> says p m -> undamaged p ->
    sane (rxs s) /\ Forall byte p /\ exists f, f_packet f = p /\ sane (rxs (entered f p s)) /\
    receive E t s = closing (executeAutomaticLogon E (Addr 254 ATLogon false) (tl p) (entered f p s)).
  Proof.
    intros s t p m Hh Hm Hu. destruct (says_logon _ _ Hm) as [Hl Ha].
    destruct (logon_receive E s t p Hh Hl) as (Hs & Hb & _ & f & Hf & Hr). apply undamaged_spec in Hu. rewrite Hu, Ha in Hr.
    split; [exact Hs|]. split; [exact Hb|]. exists f. split; [exact Hf|]. split; [|exact Hr].
    exact (entered_sane f p s Hf Hb Hs).
  Qed.

  Lemma ignored : forall s t p m, hears E s t p -> says p m -> undamaged p ->
    match m with
    | Select id => logon_on s = false \/ id <> own_id s \/ is_assigned s = true
    | Assign id _ _ => logon_on s = false \/ id <> own_id s
    | Enable _ _ _ => logon_on s = false \/ is_selected s = true
    | Nothing => True
    end ->
    exists s', receive E t s = Ok (tt, s', []) /\ took s p s' /\ unmoved s s'.
  Proof.
    intros s t p m Hh Hm Hu H. destruct (intact s t p m Hh Hm Hu) as (Hs & Hb & f & Hf & Hse & ->).
    destruct Hm as [c cid sid rest Hc Hcid|c man id rest Hc Hid|c man id a b x rest Hc Hid|k rest Hk]; cbn [tl];
      inversion Hb as [|? ? _ Hb1]; subst.
    - rewrite enable_meaning by assumption.
      destruct (enable_run E (entered f (254 :: 240 + c :: cid / 256 :: cid mod 256 :: sid :: rest) s) (group_number (c mod 4)) cid sid Hse) as (cs & _ & ->).
      { inversion Hb1 as [|? ? _ Hb2]; subst. inversion Hb2 as [|? ? _ Hb3]; subst. inversion Hb3 as [|? ? _ Hb4]; subst. inversion Hb4; subst. assumption. }
      change (logon_on (entered f (254 :: 240 + c :: cid / 256 :: cid mod 256 :: sid :: rest) s)) with (logon_on s).
      change (is_selected (entered f (254 :: 240 + c :: cid / 256 :: cid mod 256 :: sid :: rest) s)) with (is_selected s).
      replace (negb (logon_on s) || is_selected s) with true by (destruct H as [-> | ->]; [reflexivity|rewrite orb_true_r; reflexivity]).
      apply quiet. exact Hf.
    - rewrite select_meaning by assumption.
      destruct (select_run (entered f (254 :: 208 + c :: man :: id ++ rest) s) id Hse) as (cs & _ & ->).
      change (logon_on (entered f (254 :: 208 + c :: man :: id ++ rest) s)) with (logon_on s).
      change (is_assigned (entered f (254 :: 208 + c :: man :: id ++ rest) s)) with (is_assigned s).
      change (own_id (entered f (254 :: 208 + c :: man :: id ++ rest) s)) with (own_id s).
      replace (logon_on s && negb (is_assigned s) && list_eqb id (own_id s)) with false; [apply quiet; exact Hf|].
      destruct (list_eqb id (own_id s)) eqn:El; [apply list_eqb_spec in El|rewrite andb_false_r; reflexivity].
      destruct H as [->|[H| ->]]; [reflexivity|contradiction|rewrite andb_false_r; reflexivity].
    - inversion Hb1 as [|? ? _ Hb2]; subst. inversion Hb2 as [|? ? _ Hb3]; subst. apply Forall_app in Hb3. destruct Hb3 as [_ Hb3].
      inversion Hb3 as [|? ? Ha Hb4]; subst. inversion Hb4 as [|? ? Hbb Hb5]; subst. inversion Hb5; subst.
      rewrite assign_meaning by assumption. destruct (understood a b x) as [A|]; [|apply quiet; exact Hf].
      destruct (assign_run (entered f (254 :: 224 + c :: man :: id ++ a :: b :: x :: rest) s) id A (a <? 192)) as (cs & _ & ->).
      change (logon_on (entered f (254 :: 224 + c :: man :: id ++ a :: b :: x :: rest) s)) with (logon_on s).
      change (own_id (entered f (254 :: 224 + c :: man :: id ++ a :: b :: x :: rest) s)) with (own_id s).
      replace (logon_on s && list_eqb id (own_id s)) with false; [apply quiet; exact Hf|].
      destruct (list_eqb id (own_id s)) eqn:El; [apply list_eqb_spec in El|rewrite andb_false_r; reflexivity].
      destruct H as [->|H]; [reflexivity|contradiction].
    - inversion Hb1; subst. rewrite nothing_meaning by assumption. apply quiet. exact Hf.
  Qed.

  Lemma selected : forall s t p id, hears E s t p -> says p (Select id) -> undamaged p ->
    logon_on s = true -> id = own_id s -> is_assigned s = false ->
    match logon_answers s with
    | [] => exists s', receive E t s = Ok (tt, s', []) /\ took s p s' /\
        is_selected s' = true /\ answers_with s' (select_answer (aval (primary (r_addrs (rxs s))))) /\
        own_addresses s' = own_addresses s /\ is_assigned s' = is_assigned s /\ to_store s' = to_store s /\
        new_station s' = new_station s /\ pause s' = pause s /\ app s' = app s
    | _ => receive E t s = UB AssertFailed
    end.
  Proof.
    intros s t p id Hh Hm Hu H1 H2 H3. destruct (intact s t p _ Hh Hm Hu) as (Hs & Hb & f & Hf & Hse & ->).
    inversion Hm as [|c man id' rest Hc Hid Hp Hi| |]; subst id'. rewrite ?Hp.
    replace (tl p) with (208 + c :: man :: id ++ rest) by (rewrite <- Hp; reflexivity). rewrite select_meaning by assumption.
    destruct (select_run (entered f p s) id Hse) as (cs & Hcs & ->).
    change (logon_on (entered f p s)) with (logon_on s). change (is_assigned (entered f p s)) with (is_assigned s).
    change (own_id (entered f p s)) with (own_id s). change (logon_answers (entered f p s)) with (logon_answers s).
    rewrite H1, H3, (proj2 (list_eqb_spec id (own_id s)) H2). cbn [andb negb].
    destruct (logon_answers s); [|reflexivity]. eexists. split; [reflexivity|].
    split; [frame_of (fun r => set_logon_deque [cs] (set_logon_selected true r))|].
    split; [reflexivity|]. split; [exists cs; split; [reflexivity|exact Hcs]|]. repeat split; try reflexivity. exact H3.
  Qed.

  (** Address [A] is taken over, the own one replaced if [ow] *)
  Lemma assigned : forall s t p id a b x c man rest A, hears E s t p -> p = 254 :: 224 + c :: man :: id ++ a :: b :: x :: rest ->
    0 <= c < 16 -> undamaged p -> logon_on s = true -> id = own_id s -> understood a b x = Some A ->
    match logon_answers s with
    | [] => exists s', receive E t s = Ok (tt, s', []) /\ took s p s' /\
        own_addresses s' = (if negb (aval A =? 0) && (a <? 192) then A else primary (r_addrs (rxs s)),
          Addr 0 (atyp (consist (r_addrs (rxs s)))) (arev (consist (r_addrs (rxs s)))), A) /\
        is_assigned s' = true /\ to_store s' = true /\ answers_with s' assign_answer /\
        is_selected s' = is_selected s /\ new_station s' = new_station s /\ pause s' = pause s /\ app s' = app s
    | _ => receive E t s = UB AssertFailed
    end.
  Proof.
    intros s t p id a b x c man rest A Hh Hp Hc Hu H1 H2 H3.
    assert (length id = 4%nat) as Hid.
    { destruct Hh as (i & os & es & Hr & _). pose proof (sane_run E _ _ _ _ Hr) as Hs. open_sane Hs. subst id. exact Hdl. }
    assert (says p (Assign id a b)) as Hm by (subst p; constructor; assumption).
    destruct (intact s t p _ Hh Hm Hu) as (Hs & Hb & f & Hf & Hse & ->).
    assert (byte a /\ byte b /\ byte x /\ Forall byte rest) as (Ha & Hbb & Hx & Hrest).
    { rewrite Hp in Hb. inversion Hb as [|? ? _ Hb1]; subst. inversion Hb1 as [|? ? _ Hb2]; subst. inversion Hb2 as [|? ? _ Hb3]; subst.
      apply Forall_app in Hb3. destruct Hb3 as [_ Hb3]. inversion Hb3 as [|? ? ? Hb4]; subst. inversion Hb4 as [|? ? ? Hb5]; subst. inversion Hb5; subst. auto. }
    replace (tl p) with (224 + c :: man :: id ++ a :: b :: x :: rest) by (rewrite Hp; reflexivity).
    rewrite assign_meaning by assumption. rewrite H3.
    destruct (assign_run (entered f p s) id A (a <? 192)) as (cs & Hcs & ->).
    change (logon_on (entered f p s)) with (logon_on s).
    change (own_id (entered f p s)) with (own_id s). change (logon_answers (entered f p s)) with (logon_answers s).
    rewrite H1, (proj2 (list_eqb_spec id (own_id s)) H2). cbn [andb negb].
    destruct (logon_answers s); [|reflexivity]. eexists. split; [reflexivity|].
    split; [frame_of (assigned_rx A (a <? 192) cs)|].
    split; [reflexivity|]. split; [reflexivity|]. split; [reflexivity|]. split; [exists cs; split; [reflexivity|exact Hcs]|]. repeat split; reflexivity.
  Qed.

  (** *** ENABLE *)

  Lemma enabled_known : forall s t p g cid sid x i1 y i2, hears E s t p -> says p (Enable g cid sid) -> undamaged p ->
    logon_on s = true -> is_selected s = false -> recognized s cid sid ->
    e_readCv E (app s) 65299 = (x, i1) -> e_readCv E i1 65300 = (y, i2) ->
    exists s', receive E t s = Ok (tt, s', [EReadCv 65299 (u8 x); EReadCv 65300 (u8 y)]) /\ took s p s' /\
      own_addresses s' = (primary (r_addrs (rxs s)), consist (r_addrs (rxs s)), address_of [u8 x; u8 y]) /\
      is_selected s' = true /\ is_assigned s' = true /\ to_store s' = true /\ new_station s' = (cid, sid) /\
      pause s' = pause s /\ logon_answers s' = logon_answers s /\ app s' = i2.
  Proof.
    intros s t p g cid sid x i1 y i2 Hh Hm Hu H1 H2 H3 H4 H5. destruct (intact s t p _ Hh Hm Hu) as (Hs & Hb & f & Hf & Hse & ->).
    inversion Hm as [c cid' sid' rest Hc Hcid Hp Hi| | |]; subst cid' sid' g. rewrite ?Hp.
    assert (byte sid) as Hsid.
    { rewrite <- Hp in Hb. inversion Hb as [|? ? _ Hb1]; subst. inversion Hb1 as [|? ? _ Hb2]; subst. inversion Hb2 as [|? ? _ Hb3]; subst. inversion Hb3 as [|? ? _ Hb4]; subst. inversion Hb4; subst. assumption. }
    replace (tl p) with (240 + c :: cid / 256 :: cid mod 256 :: sid :: rest) by (rewrite <- Hp; reflexivity).
    rewrite enable_meaning by assumption.
    destruct (enable_run E (entered f p s) (group_number (c mod 4)) cid sid Hse Hsid) as (cs & _ & ->).
    change (logon_on (entered f p s)) with (logon_on s). change (is_selected (entered f p s)) with (is_selected s).
    change (app (entered f p s)) with (app s).
    rewrite H1, H2. cbn [negb orb]. apply recognized_spec in H3.
    change (recognized_b (entered f p s) cid sid) with (recognized_b s cid sid). rewrite H3, H4, H5.
    eexists. split; [reflexivity|]. split; [frame_of (fun r => restored (address_of [u8 x; u8 y]) (noted cid sid r))|].
    repeat split; reflexivity.
  Qed.

  (** The answer is prepared, or [left] packets before it are let pass *)
  Definition forgets s (cid : Z) : bool := cid =? known_station s.
  Lemma enabled_new : forall s t p g cid sid, hears E s t p -> says p (Enable g cid sid) -> undamaged p ->
    logon_on s = true -> is_selected s = false -> ~ recognized s cid sid ->
    let old := if g =? 3 then Mk_backoff 0 0 else pause s in
    let due := negb (g =? 2) && (bo_count old =? 0) in
    if due && negb (length (logon_answers s) =? 0)%nat then receive E t s = UB AssertFailed
    else exists s', receive E t s = Ok (tt, s', []) /\ took s p s' /\ new_station s' = (cid, sid) /\
      (if forgets s cid
       then own_addresses s' = (primary (r_addrs (rxs s)), consist (r_addrs (rxs s)),
              Addr 0 (atyp (logon (r_addrs (rxs s)))) (arev (logon (r_addrs (rxs s))))) /\
            is_selected s' = false /\ is_assigned s' = false /\ to_store s' = false
       else own_addresses s' = own_addresses s /\ is_selected s' = false /\ is_assigned s' = is_assigned s /\
            to_store s' = to_store s) /\
      (if g =? 2 then pause s' = pause s /\ logon_answers s' = logon_answers s /\ app s' = app s
       else if bo_count old =? 0
       then answers_with s' (enable_answer (own_id s)) /\
            pause s' = Mk_backoff (Z.min (bo_range old + 1) 3) (fst (e_rand E (app s)) mod (8 * 2 ^ bo_range old)) /\
            app s' = snd (e_rand E (app s))
       else pause s' = Mk_backoff (bo_range old) (bo_count old - 1) /\ logon_answers s' = logon_answers s /\ app s' = app s).
  Proof.
    intros s t p g cid sid Hh Hm Hu H1 H2 H3. cbv zeta. destruct (intact s t p _ Hh Hm Hu) as (Hs & Hb & f & Hf & Hse & ->).
    inversion Hm as [c cid' sid' rest Hc Hcid Hp Hi| | |]; subst cid' sid'. rewrite ?Hp.
    assert (byte sid) as Hsid.
    { rewrite <- Hp in Hb. inversion Hb as [|? ? _ Hb1]; subst. inversion Hb1 as [|? ? _ Hb2]; subst. inversion Hb2 as [|? ? _ Hb3]; subst. inversion Hb3 as [|? ? _ Hb4]; subst. inversion Hb4; subst. assumption. }
    replace (tl p) with (240 + c :: cid / 256 :: cid mod 256 :: sid :: rest) by (rewrite <- Hp; reflexivity).
    rewrite enable_meaning by assumption.
    destruct (enable_run E (entered f p s) (group_number (c mod 4)) cid sid Hse Hsid) as (cs & Hcs & ->).
    change (logon_on (entered f p s)) with (logon_on s). change (is_selected (entered f p s)) with (is_selected s).
    rewrite H1, H2. cbn [negb orb].
    change (recognized_b (entered f p s) cid sid) with (recognized_b s cid sid).
    destruct (recognized_b s cid sid) eqn:Er; [apply recognized_spec in Er; contradiction|].
    rewrite Hi. assert (0 <= g < 4) as Hg by lia. clear Hm Hp Hi.
    change (own_id (entered f p s)) with (own_id s) in Hcs.
    change (cid =? known_station (entered f p s)) with (cid =? known_station s). unfold forgets.
    set (h := if cid =? known_station s then forgotten else fun r => r).
    assert (Hh1 : forall r, r_fsm (h r) = r_fsm r /\ r_deque (h r) = r_deque r /\ r_cnt (h r) = r_cnt r /\ r_conf (h r) = r_conf r /\
       r_bidi (h r) = r_bidi r /\ r_cv (h r) = r_cv r /\ r_time (h r) = r_time r /\ received (r_addrs (h r)) = received (r_addrs r) /\
       cid_front (r_logon (h r)) = cid_front (r_logon r) /\ sid_front (r_logon (h r)) = sid_front (r_logon r) /\
       logon_backoff (r_logon (h r)) = logon_backoff (r_logon r) /\ logon_deque (r_logon (h r)) = logon_deque (r_logon r) /\
       cid_back (r_logon (h r)) = cid_back (r_logon r) /\ sid_back (r_logon (h r)) = sid_back (r_logon r) /\
       (if cid =? known_station s
        then r_addrs (h r) = upd_logon (Addr 0 (atyp (logon (r_addrs r))) (arev (logon (r_addrs r)))) (r_addrs r) /\
             logon_selected (r_logon (h r)) = false /\ logon_assigned (r_logon (h r)) = false /\ logon_store (r_logon (h r)) = false
        else h r = r)).
    { intros [? ? ? ? ? ? ? ? ?]. subst h. destruct (cid =? known_station s); cbn; repeat split; reflexivity. }
    clearbody h.
    set (s2 := with_rx (fun r => h (noted cid sid r)) (entered f p s)).
    assert (Hb2 : logon_backoff (r_logon (rxs s2)) = pause s) by (unfold s2; cbn [with_rx rxs]; destruct (Hh1 (noted cid sid (rxs (entered f p s)))) as (_ & _ & _ & _ & _ & _ & _ & _ & _ & _ & -> & _); reflexivity).
    assert (Hq2 : logon_deque (r_logon (rxs s2)) = logon_answers s) by (unfold s2; cbn [with_rx rxs]; destruct (Hh1 (noted cid sid (rxs (entered f p s)))) as (_ & _ & _ & _ & _ & _ & _ & _ & _ & _ & _ & -> & _); reflexivity).
    (* result states *)
    assert (R : forall k i dq bo, (forall r, k r = set_logon_deque dq (set_logon_backoff bo r)) ->
      let s3 := Mk_st (k (rxs s2)) i (pending s) in
      let s' := with_fsm (reset_fsm (r_fsm (rxs s3))) s3 in
      took s p s' /\ new_station s' = (cid, sid) /\
      (if cid =? known_station s
       then own_addresses s' = (primary (r_addrs (rxs s)), consist (r_addrs (rxs s)),
              Addr 0 (atyp (logon (r_addrs (rxs s)))) (arev (logon (r_addrs (rxs s))))) /\
            is_selected s' = false /\ is_assigned s' = false /\ to_store s' = false
       else own_addresses s' = own_addresses s /\ is_selected s' = false /\ is_assigned s' = is_assigned s /\
            to_store s' = to_store s) /\ pause s' = bo /\ logon_answers s' = dq /\ app s' = i).
    { intros k i dq bo Hk. cbv zeta. rewrite Hk. split.
      - refine (took_entered f p s (fun r => set_logon_deque dq (set_logon_backoff bo (h (noted cid sid r)))) i Hf _).
        intros r. destruct (Hh1 (noted cid sid r)) as (A1 & A2 & A3 & A4 & A5 & A6 & A7 & A8 & A9 & A10 & _).
        cbn [set_logon_deque set_logon_backoff set_r_logon upd_logon_deque upd_logon_backoff r_fsm r_deque r_cnt r_conf r_bidi r_cv r_time r_addrs r_logon cid_front sid_front].
        rewrite A1, A2, A3, A4, A5, A6, A7, A8, A9, A10. repeat split; reflexivity.
      - destruct (Hh1 (noted cid sid (rxs (entered f p s)))) as (_ & _ & _ & _ & _ & _ & _ & _ & _ & _ & _ & _ & A13 & A14 & A15).
        split; [unfold new_station; cbn [with_fsm rxs set_r_fsm r_logon set_logon_deque set_logon_backoff set_r_logon upd_logon_deque upd_logon_backoff cid_back sid_back];
                unfold s2; cbn [with_rx rxs]; rewrite A13, A14; reflexivity|].
        split; [|repeat split; reflexivity].
        unfold own_addresses, is_selected, is_assigned, to_store.
        cbn [with_fsm rxs set_r_fsm r_logon r_addrs set_logon_deque set_logon_backoff set_r_logon upd_logon_deque upd_logon_backoff logon_selected logon_assigned logon_store].
        unfold s2. cbn [with_rx rxs].
        destruct (cid =? known_station s); [destruct A15 as (-> & -> & -> & ->)|rewrite A15]; repeat split; try reflexivity; exact H2. }
    assert (T : s2 = Mk_st (set_logon_deque (logon_answers s) (set_logon_backoff (pause s) (rxs s2))) (app s) (pending s)).
    { change s2 with (Mk_st (rxs s2) (app s) (pending s)) at 1. f_equal.
      clear - Hb2 Hq2. destruct (rxs s2) as [? ? ? ? ? [? ? ? ? ? ? ? ? ?] ? ? ?]. cbn in Hb2, Hq2. subst. reflexivity. }
    assert (g = 0 \/ g = 1 \/ g = 2 \/ g = 3) as Hcases by lia.
    assert (P : forall gg, pause_for gg (logon_backoff (r_logon (rxs s2))) = match gg with GNow => Mk_backoff 0 0 | _ => pause s end) by (intros gg; rewrite Hb2; reflexivity).
    assert (W : forall gg, gg <> GAcc ->
      answering E gg cs s2 =
      let old := match gg with GNow => Mk_backoff 0 0 | _ => pause s end in
      if bo_count old =? 0 then
        match logon_answers s with
        | [] => Ok (tt, Mk_st (set_logon_deque [cs] (set_logon_backoff
                  (Mk_backoff (Z.min (bo_range old + 1) 3) (fst (e_rand E (app s)) mod (8 * 2 ^ bo_range old))) (rxs s2))) (snd (e_rand E (app s))) (pending s), [])
        | _ => UB AssertFailed
        end
      else Ok (tt, Mk_st (set_logon_backoff (Mk_backoff (bo_range old) (bo_count old - 1)) (rxs s2)) (app s) (pending s), [])).
    { intros gg Hgg. unfold answering. cbv zeta. rewrite P, Hq2. change (app s2) with (app s). change (pending s2) with (pending s).
      destruct (e_rand E (app s)) as [n i]. destruct gg; try congruence; reflexivity. }
    assert (Q : forall bo, set_logon_backoff bo (rxs s2) = set_logon_deque (logon_answers s) (set_logon_backoff bo (rxs s2))).
    { intros bo. clear - Hq2. destruct (rxs s2) as [? ? ? ? ? [? ? ? ? ? ? ? ? ?] ? ? ?]. cbn in Hq2. subst. reflexivity. }
    assert (D : forall gg, gg <> GAcc ->
      let old := match gg with GNow => Mk_backoff 0 0 | _ => pause s end in
      if (bo_count old =? 0) && negb (length (logon_answers s) =? 0)%nat then closing (done (answering E gg cs s2)) = UB AssertFailed
      else exists s', closing (done (answering E gg cs s2)) = Ok (tt, s', []) /\ took s p s' /\ new_station s' = (cid, sid) /\
      (if cid =? known_station s
       then own_addresses s' = (primary (r_addrs (rxs s)), consist (r_addrs (rxs s)),
              Addr 0 (atyp (logon (r_addrs (rxs s)))) (arev (logon (r_addrs (rxs s))))) /\
            is_selected s' = false /\ is_assigned s' = false /\ to_store s' = false
       else own_addresses s' = own_addresses s /\ is_selected s' = false /\ is_assigned s' = is_assigned s /\
            to_store s' = to_store s) /\
      (if bo_count old =? 0
       then answers_with s' (enable_answer (own_id s)) /\
            pause s' = Mk_backoff (Z.min (bo_range old + 1) 3) (fst (e_rand E (app s)) mod (8 * 2 ^ bo_range old)) /\
            app s' = snd (e_rand E (app s))
       else pause s' = Mk_backoff (bo_range old) (bo_count old - 1) /\ logon_answers s' = logon_answers s /\ app s' = app s)).
    { intros gg Hgg. cbv zeta. rewrite (W gg Hgg). cbv zeta.
      set (old := match gg with GNow => Mk_backoff 0 0 | _ => pause s end). clearbody old.
      destruct (bo_count old =? 0); cbn [andb].
      - destruct (logon_answers s) as [|q0 q1]; cbn [length Nat.eqb negb]; [|reflexivity].
        set (bo := Mk_backoff (Z.min (bo_range old + 1) 3) (fst (e_rand E (app s)) mod (8 * 2 ^ bo_range old))).
        destruct (R (fun r => set_logon_deque [cs] (set_logon_backoff bo r)) (snd (e_rand E (app s))) [cs] bo (fun r => eq_refl)) as (R1 & R2 & R3 & R4 & R5 & R6).
        eexists. split; [reflexivity|]. split; [exact R1|]. split; [exact R2|]. split; [exact R3|].
        split; [exists cs; split; [exact R5|exact Hcs]|]. split; [exact R4|exact R6].
      - rewrite Q. set (bo := Mk_backoff (bo_range old) (bo_count old - 1)).
        destruct (R (fun r => set_logon_deque (logon_answers s) (set_logon_backoff bo r)) (app s) (logon_answers s) bo (fun r => eq_refl)) as (R1 & R2 & R3 & R4 & R5 & R6).
        eexists. split; [reflexivity|]. split; [exact R1|]. split; [exact R2|]. split; [exact R3|]. split; [exact R4|]. split; [exact R5|exact R6]. }
    destruct Hcases as [->|[->|[->| ->]]].
    - exact (D GAll ltac:(discriminate)).
    - exact (D GLoco ltac:(discriminate)).
    - change (2 =? 2) with true. change (2 =? 3) with false. cbn [negb andb].
      destruct (R (fun r => set_logon_deque (logon_answers s) (set_logon_backoff (pause s) r)) (app s) (logon_answers s) (pause s) (fun r => eq_refl)) as (R1 & R2 & R3 & R4 & R5 & R6).
      cbv beta in *. exists (with_fsm (reset_fsm (r_fsm (rxs s2))) s2).
      split; [reflexivity|]. rewrite T. split; [exact R1|]. split; [exact R2|]. split; [exact R3|]. split; [exact R4|]. split; [exact R5|exact R6].
    - exact (D GNow ltac:(discriminate)).
  Qed.
End Effects.
