(** Programming on the programming track: proofs *)
From Verif Require Import Prelude Address ZBits SpecCodec SpecTx TxProofs Tx CodecProofs CodecProofs2 Packets RxState Rx SpecRx RxLogic
  RxBitProofs RxBitProofs5 SpecExec SpecConf SpecCv SpecLayout LayoutProofs4 LayoutProofs6 SpecProg.
Local Ltac Zify.zify_post_hook ::= Z.div_mod_to_equations.

(** ** Packets *)

Lemma service_packet_form : forall x, access_ok x -> exists b0 b1 b2,
  service_packet x = Ok (closed [b0; b1; b2]) /\ byte b0 /\ byte b1 /\ byte b2 /\ b0 / 16 = 7 /\ request b0 b1 b2 = [x].
Proof.
  intros x [Ht Hx]. unfold byte.
  assert (Hbits : forall op b k, (op = 0xE0 \/ op = 0xF0) -> 0 <= k < 8 ->
    bit_of (op + 8 * Z.b2z b + k) 3 = b /\ (op + 8 * Z.b2z b + k) mod 8 = k /\
    bit_of (op + 8 * Z.b2z b + k) 4 = (op =? 0xF0) /\ 0 <= op + 8 * Z.b2z b + k < 256).
  { intros op b k Ho Hk. unfold bit_of. change (2 ^ 3) with 8. change (2 ^ 4) with 16.
    rewrite !Zodd_mod. destruct Ho as [-> | ->]; destruct b; cbn [Z.b2z Z.eqb Pos.eqb];
      (split; [|split; [|split]]); try lia;
      match goal with |- Zeq_bool _ _ = ?r => destruct r eqn:Hr; try discriminate Hr; unfold Zeq_bool; destruct (_ ?= _) eqn:Hc; try reflexivity;
        rewrite ?Z.compare_eq_iff, ?Z.compare_lt_iff, ?Z.compare_gt_iff in Hc; lia end. }
  destruct x as [a v|a v|a b k|a b k]; cbn [target service_packet] in *.
  - destruct (gen_service a v true 0 Ht Hx ltac:(lia)) as (-> & _). do 3 eexists. split; [reflexivity|].
    split; [lia|]. split; [lia|]. split; [lia|]. split; [lia|]. unfold request.
    replace ((116 + a / 256) / 4 mod 4) with 1 by lia. replace (256 * ((116 + a / 256) mod 4) + a mod 256) with a by lia. reflexivity.
  - destruct (gen_service a v true 0 Ht Hx ltac:(lia)) as (_ & -> & _). do 3 eexists. split; [reflexivity|].
    split; [lia|]. split; [lia|]. split; [lia|]. split; [lia|]. unfold request.
    replace ((124 + a / 256) / 4 mod 4) with 3 by lia. replace (256 * ((124 + a / 256) mod 4) + a mod 256) with a by lia. reflexivity.
  - destruct (gen_service a 0 b k Ht ltac:(unfold byte; lia) Hx) as (_ & _ & -> & _). do 3 eexists. split; [reflexivity|].
    destruct (Hbits 0xE0 b k (or_introl eq_refl) Hx) as (B1 & B2 & B3 & B4).
    split; [lia|]. split; [lia|]. split; [exact B4|]. split; [lia|]. unfold request.
    replace ((120 + a / 256) / 4 mod 4) with 2 by lia. replace (256 * ((120 + a / 256) mod 4) + a mod 256) with a by lia.
    rewrite B1, B2, B3. reflexivity.
  - destruct (gen_service a 0 b k Ht ltac:(unfold byte; lia) Hx) as (_ & _ & _ & ->). do 3 eexists. split; [reflexivity|].
    destruct (Hbits 0xF0 b k (or_intror eq_refl) Hx) as (B1 & B2 & B3 & B4).
    split; [lia|]. split; [lia|]. split; [exact B4|]. split; [lia|]. unfold request.
    replace ((120 + a / 256) / 4 mod 4) with 2 by lia. replace (256 * ((120 + a / 256) mod 4) + a mod 256) with a by lia.
    rewrite B1, B2, B3. reflexivity.
Qed.

Lemma service_packet_inj : forall x y p, access_ok x -> access_ok y -> service_packet x = Ok p -> service_packet y = Ok p -> x = y.
Proof.
  intros x y p Hx Hy E1 E2.
  destruct (service_packet_form x Hx) as (a0 & a1 & a2 & A & _ & _ & _ & _ & RA).
  destruct (service_packet_form y Hy) as (b0 & b1 & b2 & B & _ & _ & _ & _ & RB).
  rewrite A in E1. rewrite B in E2. apply Ok_inj in E1, E2. subst p. unfold closed in E2. cbn [List.app] in E2.
  inversion E2; subst. rewrite RA in RB. inversion RB. reflexivity.
Qed.

(** ** The interpreter *)

Section Interpreter.
  Variable ew : bool.

  Lemma obey_all_app : forall a b v,
    obey_all ew (a ++ b) v = (fst (obey_all ew b (fst (obey_all ew a v))),
                              snd (obey_all ew a v) ++ snd (obey_all ew b (fst (obey_all ew a v)))).
  Proof.
    induction a as [|p a IH]; intros b v; cbn [List.app obey_all fst snd]; [destruct (obey_all ew b v); reflexivity|].
    destruct (obey ew p v) as [v1 l1]. rewrite IH. destruct (obey_all ew a v1) as [v2 l2]. cbn [fst snd].
    rewrite app_assoc. reflexivity.
  Qed.

  Lemma resets_stay : forall n v, v_service v = true -> obey_all ew (repeat make_reset_packet n) v = (v, []).
  Proof.
    induction n as [|n IH]; intros v H; [reflexivity|]. cbn [repeat obey_all]. unfold obey. rewrite H. cbn. rewrite IH by exact H.
    reflexivity.
  Qed.
  Lemma reset_enters : forall v, v_service v = false -> obey ew make_reset_packet v = (with_service true v, [Told (EServiceModeHook true)]).
  Proof. intros v H. unfold obey. rewrite H. reflexivity. Qed.

  Lemma service_closed : forall b0 b1 b2 v, b0 / 16 = 7 -> v_service v = true ->
    obey ew (closed [b0; b1; b2]) v =
    perform_all (if (v_times (count (closed [b0; b1; b2]) v) =? 2)%nat then request b0 b1 b2 else []) (count (closed [b0; b1; b2]) v).
  Proof.
    intros b0 b1 b2 v H Hs. unfold obey. rewrite Hs. unfold service, closed. cbn [List.app nth length].
    destruct (Z.eqb_spec b0 0); [lia|]. destruct (Z.eqb_spec (b0 / 16) 7); [|lia]. reflexivity.
  Qed.

  Lemma repeats_nothing : forall n b0 b1 b2 v, b0 / 16 = 7 -> v_service v = true -> v_last v = closed [b0; b1; b2] -> (2 <= v_times v)%nat ->
    obey_all ew (repeat (closed [b0; b1; b2]) n) v = (View (v_cvs v) true (v_page v) (closed [b0; b1; b2]) (n + v_times v), []).
  Proof.
    induction n as [|n IH]; intros b0 b1 b2 v H Hs Hl Ht; cbn [repeat obey_all].
    - rewrite <- Hs, <- Hl. destruct v; reflexivity.
    - rewrite service_closed by assumption. unfold count. rewrite Hl.
      destruct (list_eq_dec Z.eq_dec (closed [b0; b1; b2]) (closed [b0; b1; b2])) as [_|C]; [|contradiction].
      cbn [v_times]. destruct (Nat.eqb_spec (S (v_times v)) 2) as [C|_]; [lia|]. cbn [perform_all].
      rewrite IH; cbn [v_cvs v_service v_page v_last v_times List.app]; [f_equal; f_equal; lia|assumption|assumption|reflexivity|lia].
  Qed.

  Definition one_programmed (x : access) (c : Z -> Z) : (Z -> Z) * list seen :=
    let ok := permitted (cvs_locked (switches c)) x in
    let c1 := if ok then after x c else c in
    (c1, if ok then Access x :: if agrees x c1 then [Told EServiceAck] else [] else []).

  Lemma first_nothing : forall b0 b1 b2 v, b0 / 16 = 7 -> v_service v = true -> v_last v <> closed [b0; b1; b2] ->
    obey ew (closed [b0; b1; b2]) v = (View (v_cvs v) true (v_page v) (closed [b0; b1; b2]) 1, []).
  Proof.
    intros b0 b1 b2 v H Hs Hl. rewrite service_closed by assumption. unfold count.
    destruct (list_eq_dec Z.eq_dec (v_last v) (closed [b0; b1; b2])) as [C|_]; [contradiction|]. rewrite Hs. reflexivity.
  Qed.
  Lemma second_done : forall b0 b1 b2 x v, b0 / 16 = 7 -> v_service v = true -> v_last v = closed [b0; b1; b2] -> v_times v = 1%nat ->
    request b0 b1 b2 = [x] ->
    obey ew (closed [b0; b1; b2]) v =
    (View (fst (one_programmed x (v_cvs v))) true (v_page v) (closed [b0; b1; b2]) 2, snd (one_programmed x (v_cvs v))).
  Proof.
    intros b0 b1 b2 x v H Hs Hl Ht Hr. rewrite service_closed by assumption. unfold count. rewrite Hl.
    destruct (list_eq_dec Z.eq_dec (closed [b0; b1; b2]) (closed [b0; b1; b2])) as [_|C]; [|contradiction].
    rewrite Ht, Hr, Hs. cbn [Nat.eqb v_times perform_all]. unfold perform, one_programmed. cbn [v_cvs v_service andb].
    destruct (permitted (cvs_locked (switches (v_cvs v))) x); cbn [fst snd]; rewrite ?app_nil_r; reflexivity.
  Qed.

  Lemma turn_obeyed : forall t ps v, turn_sent t ps -> v_service v = true ->
    (forall p, service_packet (t_access t) = Ok p -> v_last v <> p) ->
    exists p k, service_packet (t_access t) = Ok p /\
      obey_all ew ps v = (View (fst (one_programmed (t_access t) (v_cvs v))) true (v_page v) p k,
                          snd (one_programmed (t_access t) (v_cvs v))).
  Proof.
    intros [x n r] ps v (Hn & Hx & p & Hp & ->) Hs Hl. cbn [t_access t_times t_resets] in *.
    destruct (service_packet_form x Hx) as (b0 & b1 & b2 & F & _ & _ & _ & F7 & FR).
    assert (p = closed [b0; b1; b2]) by (rewrite Hp in F; apply Ok_inj in F; exact F). subst p.
    specialize (Hl _ F). exists (closed [b0; b1; b2]).
    destruct n as [|[|n]]; [lia|lia|]. exists (n + 2)%nat. split; [exact F|].
    rewrite obey_all_app. cbn [repeat obey_all].
    rewrite (first_nothing b0 b1 b2 v F7 Hs Hl), (second_done b0 b1 b2 x (View (v_cvs v) true (v_page v) (closed [b0; b1; b2]) 1) F7 eq_refl eq_refl eq_refl FR).
    rewrite repeats_nothing by (try reflexivity; try assumption; cbn [v_times]; lia). cbn [v_cvs v_page v_times fst snd].
    rewrite resets_stay by reflexivity. cbn [fst snd List.app]. rewrite !app_nil_r. reflexivity.
  Qed.

  Lemma turns_obeyed : forall ts pss v, Forall2 turn_sent ts pss -> changing ts -> v_service v = true ->
    (forall t r p, ts = t :: r -> service_packet (t_access t) = Ok p -> v_last v <> p) ->
    exists p k, obey_all ew (concat pss) v = (View (fst (programmed (map t_access ts) (v_cvs v))) true (v_page v) p k,
                                             snd (programmed (map t_access ts) (v_cvs v))).
  Proof.
    induction ts as [|t ts IH]; intros pss v Hf Hc Hs Hl; inversion Hf; subst; cbn [concat map programmed].
    { exists (v_last v), (v_times v). cbn [obey_all fst snd]. rewrite <- Hs. destruct v; reflexivity. }
    match goal with H : turn_sent t ?l, H' : Forall2 turn_sent ts ?ll |- _ => rename H into Ht; rename H' into Hts; rename l into ps; rename ll into pss' end.
    destruct (turn_obeyed t ps v Ht Hs (fun p => Hl t ts p eq_refl)) as (p & k & Hp & He).
    rewrite obey_all_app, He. cbn [fst snd].
    destruct (IH pss' (View (fst (one_programmed (t_access t) (v_cvs v))) true (v_page v) p k) Hts) as (q & j & Hq).
    { destruct ts; [exact Logic.I|]. destruct Hc as [_ Hc]. exact Hc. }
    { reflexivity. }
    { intros t' r q -> Hq C. cbn [v_last] in C. subst q. destruct Hc as [Hc _]. apply Hc.
      inversion Hts; subst. match goal with H : turn_sent t' _ |- _ => destruct H as (_ & Ht' & _) end.
      destruct Ht as (_ & Ht & _). exact (service_packet_inj _ _ p Ht Ht' Hp Hq). }
    rewrite Hq. cbn [fst snd v_cvs v_page]. exists q, j. unfold one_programmed. cbn [fst snd].
    destruct (programmed (map t_access ts) _) as [c2 l]. reflexivity.
  Qed.

  (** A whole session *)
  Lemma session_obeyed : forall before n ts pss v,
    let w := fst (obey_all ew before v) in
    Forall2 turn_sent ts pss -> changing ts -> v_service w = false ->
    (forall t r p, ts = t :: r -> service_packet (t_access t) = Ok p -> v_last w <> p) ->
    exists p k, obey_all ew (before ++ repeat make_reset_packet (S n) ++ concat pss) v =
      (View (fst (programmed (map t_access ts) (v_cvs w))) true (v_page w) p k,
       snd (obey_all ew before v) ++ Told (EServiceModeHook true) :: snd (programmed (map t_access ts) (v_cvs w))).
  Proof.
    intros before n ts pss v w Hf Hc Hs Hl.
    destruct (turns_obeyed ts pss (with_service true w) Hf Hc eq_refl Hl) as (p & k & H). exists p, k.
    rewrite obey_all_app. fold w. rewrite obey_all_app. cbn [repeat obey_all]. rewrite reset_enters by exact Hs.
    rewrite resets_stay by reflexivity. cbn [fst snd]. rewrite H. cbn [fst snd List.app v_cvs v_page with_service]. reflexivity.
  Qed.
End Interpreter.

(** ** What is read and written *)

Lemma programmed_unlocked_checks : forall xs c, cvs_locked (switches c) = false -> Forall (fun x => is_writing x = false) xs ->
  programmed xs c = (c, flat_map (fun x => Access x :: if agrees x c then [Told EServiceAck] else []) xs).
Proof.
  induction xs as [|x xs IH]; intros c Hl Hx; [reflexivity|]. inversion Hx; subst. cbn [programmed flat_map].
  unfold permitted. rewrite Hl. cbn [negb orb].
  assert (E : after x c = c) by (destruct x; try discriminate; reflexivity). rewrite E, IH by assumption. reflexivity.
Qed.

Lemma byte_sum : forall v, 0 <= v < 256 ->
  (if bit_of v 7 then 128 else 0) + (if bit_of v 6 then 64 else 0) + (if bit_of v 5 then 32 else 0) + (if bit_of v 4 then 16 else 0)
  + (if bit_of v 3 then 8 else 0) + (if bit_of v 2 then 4 else 0) + (if bit_of v 1 then 2 else 0) + (if bit_of v 0 then 1 else 0) = v.
Proof.
  intros v Hv.
  refine (proj1 (Z.eqb_eq _ _) (sweep8 (fun v => (if bit_of v 7 then 128 else 0) + (if bit_of v 6 then 64 else 0) + (if bit_of v 5 then 32 else 0) + (if bit_of v 4 then 16 else 0)
  + (if bit_of v 3 then 8 else 0) + (if bit_of v 2 then 4 else 0) + (if bit_of v 1 then 2 else 0) + (if bit_of v 0 then 1 else 0) =? v) _ v Hv)).
  vm_compute. reflexivity.
Qed.

Lemma reading_reads : forall a w c, cvs_locked (switches c) = false -> 0 <= c a < 256 ->
  let x := programmed (reading a w) c in
  fst x = c /\ read_out (snd x) = c a /\ confirmed_last (snd x) = (w =? c a).
Proof.
  intros a w c Hl Hb x. subst x. rewrite programmed_unlocked_checks; [|exact Hl|repeat constructor]. cbn [fst snd]. split; [reflexivity|].
  unfold reading. cbn [map List.app flat_map agrees Bool.eqb]. split.
  - pose proof (byte_sum (c a) Hb) as S.
    destruct (bit_of (c a) 7), (bit_of (c a) 6), (bit_of (c a) 5), (bit_of (c a) 4), (bit_of (c a) 3), (bit_of (c a) 2), (bit_of (c a) 1), (bit_of (c a) 0), (w =? c a);
      cbn [List.app read_out]; lia.
  - destruct (w =? c a); unfold confirmed_last;
    destruct (bit_of (c a) 7), (bit_of (c a) 6), (bit_of (c a) 5), (bit_of (c a) 4), (bit_of (c a) 3), (bit_of (c a) 2), (bit_of (c a) 1), (bit_of (c a) 0); reflexivity.
Qed.

Lemma writing_writes : forall a v c, cvs_locked (switches c) = false ->
  snd (programmed [Store a v] c) = [Access (Store a v); Told EServiceAck] /\
  forall x, fst (programmed [Store a v] c) x = if x =? a then v else c x.
Proof.
  intros a v c Hl. cbn [programmed]. unfold permitted. rewrite Hl. cbn [negb orb after agrees].
  assert (E : set_cv c a v a = v) by (unfold set_cv; rewrite Z.eqb_refl; reflexivity). rewrite E, Z.eqb_refl.
  split; [reflexivity|]. intro x. reflexivity.
Qed.

Lemma locked_silent : forall xs c, cvs_locked (switches c) = true -> Forall (fun x => is_writing x = false) xs ->
  programmed xs c = (c, []).
Proof.
  induction xs as [|x xs IH]; intros c Hl Hx; [reflexivity|]. inversion Hx; subst. cbn [programmed].
  unfold permitted. rewrite Hl. match goal with H : is_writing x = false |- _ => rewrite H end. cbn [negb orb andb].
  rewrite IH by assumption. reflexivity.
Qed.

(** ** Calls and the track *)

Section Calls.
  Context {I : Type} (E : Env I) (m : I -> Z -> Z) (able : access -> Prop) (Hk : keeps_cvs able E m).

  Lemma programmed_allowed : forall ts c, (forall t, In t ts -> is_writing (t_access t) = true -> able (t_access t)) ->
    Forall (allowed able) (snd (programmed (map t_access ts) c)).
  Proof.
    induction ts as [|t ts IH]; intros c H; [constructor|]. cbn [map programmed].
    destruct (permitted (cvs_locked (switches c)) (t_access t)).
    - specialize (IH (after (t_access t) c) (fun t' Ht => H t' (or_intror Ht))).
      destruct (programmed (map t_access ts) (after (t_access t) c)) as [c2 l]. cbn [snd] in *.
      apply Forall_app. split; [|exact IH]. apply Forall_cons; [exact (H t (or_introl eq_refl))|].
      destruct (agrees _ _); repeat constructor.
    - specialize (IH c (fun t' Ht => H t' (or_intror Ht))). destruct (programmed (map t_access ts) c) as [c2 l]. exact IH.
  Qed.

  Lemma session_with_end : forall ew before n ts pss after v,
    let w := fst (obey_all ew before v) in
    Forall2 turn_sent ts pss -> changing ts -> v_service w = false ->
    (forall t r p, ts = t :: r -> service_packet (t_access t) = Ok p -> v_last w <> p) -> ending after ->
    let x := programmed (map t_access ts) (v_cvs w) in
    let y := obey_all ew (before ++ repeat make_reset_packet (S n) ++ concat pss ++ after) v in
    v_cvs (fst y) = fst x /\ v_service (fst y) = match after with [] => true | _ => false end /\
    snd y = snd (obey_all ew before v) ++ Told (EServiceModeHook true) :: snd x ++ farewell after.
  Proof.
    intros ew before n ts pss after v w Hf Hc Hs Hl He x y. subst y.
    destruct (session_obeyed ew before n ts pss v Hf Hc Hs Hl) as (p & k & H). fold w in H. fold x in H.
    assert (Hz : before ++ repeat make_reset_packet (S n) ++ concat pss ++ after
                 = (before ++ repeat make_reset_packet (S n) ++ concat pss) ++ after) by (rewrite <- !app_assoc; reflexivity).
    rewrite Hz, obey_all_app, H. cbn [fst snd]. clear Hz H.
    destruct after as [|q [|q2 rest]]; [| |contradiction].
    - cbn [obey_all fst snd v_cvs v_service farewell]. rewrite !app_nil_r. repeat split.
    - destruct He as [H0 H7]. cbn [obey_all]. unfold obey. cbn [v_service]. unfold service. 
      destruct (Z.eqb_spec (nth 0 q 0) 0) as [C|_]; [contradiction|]. destruct (Z.eqb_spec (nth 0 q 0 / 16) 7) as [C|_]; [contradiction|].
      cbn [negb fst snd with_service v_cvs v_service farewell]. split; [reflexivity|]. split; [reflexivity|].
      rewrite <- app_assoc. reflexivity.
  Qed.

  Lemma programming : forall os i s es before n ts pss after,
    run E (OInit :: os) (st0 i) = Ok (tt, s, es) -> logons os listener0 = [] ->
    taken os listener0 = before ++ repeat make_reset_packet (S n) ++ concat pss ++ after ->
    Forall2 turn_sent ts pss -> changing ts -> ending after ->
    let b := obey_all (e_east_west E) before (new_view (m i)) in
    v_service (fst b) = false -> Forall (allowed able) (snd b) ->
    (forall t, In t ts -> is_writing (t_access t) = true -> able (t_access t)) ->
    (forall t r p, ts = t :: r -> service_packet (t_access t) = Ok p -> v_last (fst b) <> p) ->
    let x := programmed (map t_access ts) (v_cvs (fst b)) in
    seen_in es = snd b ++ Told (EServiceModeHook true) :: snd x ++ farewell after /\
    (forall a, m (Rx.app s) a = fst x a) /\ in_service s = match after with [] => true | _ => false end.
  Proof.
    intros os i s es before n ts pss after Hrun Hlo Htk Hf Hc He b Hs Hb Hw Hl x.
    destruct (session_with_end (e_east_west E) before n ts pss after (new_view (m i)) Hf Hc Hs Hl He) as (A1 & A2 & A3).
    fold b in A1, A3. fold x in A1, A3. rewrite <- Htk in A1, A2, A3.
    destruct (layout E m able Hk os i s es Hrun Hlo) as (B1 & B2 & B3 & _).
    { rewrite A3. apply Forall_app. split; [exact Hb|]. apply Forall_cons; [exact Logic.I|]. apply Forall_app.
      split; [apply programmed_allowed; exact Hw|]. destruct after; repeat constructor. }
    rewrite B1, A3, B3, A2. split; [reflexivity|]. split; [|reflexivity]. intro a. rewrite B2, A1. reflexivity.
  Qed.

  Lemma programming_track : forall c ops xs tx i dos s es,
    config_ok c -> Forall plain_op ops -> (forall bs, In (TBytes bs) ops -> packet_ok bs) ->
    tx_run (TInit c :: ops) (tx_init_state 4) = Ok ((None, []) :: xs, tx) ->
    filter is_receive dos = map OReceive (map fst (intervals xs)) -> ~ In ODisable dos ->
    never_full dos listener0 -> run E (OInit :: dos) (st0 i) = Ok (tt, s, es) ->
    exists h, flat_map call_of h = ops /\ flat_map result_of h = xs /\ history_ok c h /\
      forall before n ts pss after,
      finished c (None :: started h) (length (ticks h))
        = (before ++ repeat make_reset_packet (S n) ++ concat pss ++ after) ++ r_deque (rxs s) ->
      Forall2 turn_sent ts pss -> changing ts -> ending after ->
      let b := obey_all (e_east_west E) before (new_view (m i)) in
      v_service (fst b) = false -> Forall (allowed able) (snd b) ->
      (forall t, In t ts -> is_writing (t_access t) = true -> able (t_access t)) ->
      (forall t r p, ts = t :: r -> service_packet (t_access t) = Ok p -> v_last (fst b) <> p) ->
      let x := programmed (map t_access ts) (v_cvs (fst b)) in
      seen_in es = snd b ++ Told (EServiceModeHook true) :: snd x ++ farewell after /\
      (forall a, m (Rx.app s) a = fst x a) /\ in_service s = match after with [] => true | _ => false end.
  Proof.
    intros c ops xs tx i dos s es Hc Hops Hpk Htx Hdos Hnd Hnf Hrun.
    destruct (whole_layout E m able Hk c ops xs tx i dos s es Hc Hops Hpk Htx Hdos Hnd Hnf Hrun) as (h & done & H1 & H2 & H3 & H4 & H5).
    exists h. split; [exact H1|]. split; [exact H2|]. split; [exact H3|].
    intros before n ts pss after Hd Hf Hch He b Hs Hb Hw Hl x.
    rewrite Hd in H4. apply app_inv_tail in H4. subst done.
    destruct (session_with_end (e_east_west E) before n ts pss after (new_view (m i)) Hf Hch Hs Hl He) as (A1 & A2 & A3).
    fold b in A1, A3. fold x in A1, A3.
    destruct H5 as (B1 & B2 & B3 & _).
    { rewrite A3. apply Forall_app. split; [exact Hb|]. apply Forall_cons; [exact Logic.I|]. apply Forall_app.
      split; [apply programmed_allowed; exact Hw|]. destruct after; repeat constructor. }
    rewrite B1, A3, B3, A2. split; [reflexivity|]. split; [|reflexivity]. intro a. rewrite B2, A1. reflexivity.
  Qed.

  (** Reading and writing one CV, decoder level *)
  Lemma read_session : forall os i s es before n ts pss after a w,
    run E (OInit :: os) (st0 i) = Ok (tt, s, es) -> logons os listener0 = [] ->
    taken os listener0 = before ++ repeat make_reset_packet (S n) ++ concat pss ++ after ->
    Forall2 turn_sent ts pss -> map t_access ts = reading a w -> ending after ->
    let b := obey_all (e_east_west E) before (new_view (m i)) in
    v_service (fst b) = false -> Forall (allowed able) (snd b) ->
    (forall t r p, ts = t :: r -> service_packet (t_access t) = Ok p -> v_last (fst b) <> p) ->
    cvs_locked (switches (v_cvs (fst b))) = false -> byte (v_cvs (fst b) a) ->
    exists l, seen_in es = snd b ++ Told (EServiceModeHook true) :: l ++ farewell after /\
      read_out l = v_cvs (fst b) a /\ confirmed_last l = (w =? v_cvs (fst b) a) /\
      forall x, m (Rx.app s) x = v_cvs (fst b) x.
  Proof.
    intros os i s es before n ts pss after a w Hrun Hlo Htk Hf Hr He b Hs Hb Hl Hu Hbyte.
    assert (Hc : changing ts).
    { clear - Hr. unfold reading in Hr. cbn [map List.app] in Hr.
      do 9 (destruct ts as [|? ts]; cbn [map] in Hr; [discriminate|]). destruct ts; [|discriminate].
      injection Hr. intros. cbn [changing]. repeat match goal with H : t_access _ = _ |- _ => rewrite H; clear H end.
      repeat split; discriminate. }
    assert (Hw : forall t, In t ts -> is_writing (t_access t) = true -> able (t_access t)).
    { intros t Ht C. exfalso. assert (In (t_access t) (reading a w)) as HI by (rewrite <- Hr; apply in_map; exact Ht).
      unfold reading in HI. cbn [map List.app In] in HI.
      repeat (destruct HI as [HI|HI]; [rewrite <- HI in C; discriminate|]). exact HI. }
    destruct (programming os i s es before n ts pss after Hrun Hlo Htk Hf Hc He Hs Hb Hw Hl) as (A & B & _).
    fold b in A, B. rewrite Hr in A, B. destruct (reading_reads a w (v_cvs (fst b)) Hu Hbyte) as (C1 & C2 & C3).
    exists (snd (programmed (reading a w) (v_cvs (fst b)))). split; [exact A|]. split; [exact C2|]. split; [exact C3|].
    intro x. rewrite B, C1. reflexivity.
  Qed.

  Lemma write_session : forall os i s es before n k r pss after a v,
    run E (OInit :: os) (st0 i) = Ok (tt, s, es) -> logons os listener0 = [] ->
    taken os listener0 = before ++ repeat make_reset_packet (S n) ++ concat pss ++ after ->
    Forall2 turn_sent [Turn (Store a v) k r] pss -> ending after ->
    let b := obey_all (e_east_west E) before (new_view (m i)) in
    v_service (fst b) = false -> Forall (allowed able) (snd b) -> able (Store a v) ->
    (forall p, service_packet (Store a v) = Ok p -> v_last (fst b) <> p) ->
    cvs_locked (switches (v_cvs (fst b))) = false ->
    seen_in es = snd b ++ [Told (EServiceModeHook true); Access (Store a v); Told EServiceAck] ++ farewell after /\
    m (Rx.app s) a = v /\ forall x, x <> a -> m (Rx.app s) x = v_cvs (fst b) x.
  Proof.
    intros os i s es before n k r pss after a v Hrun Hlo Htk Hf He b Hs Hb Ha Hl Hu.
    destruct (programming os i s es before n [Turn (Store a v) k r] pss after Hrun Hlo Htk Hf Logic.I He Hs Hb) as (A & B & _).
    { intros t [<-|[]] _. exact Ha. }
    { intros t r' p Et. injection Et as <- <-. exact (Hl p). }
    fold b in A, B. cbn [map t_access] in A, B. destruct (writing_writes a v (v_cvs (fst b)) Hu) as (C1 & C2).
    rewrite C1 in A. split; [exact A|]. split.
    - rewrite B, C2, Z.eqb_refl. reflexivity.
    - intros x Hx. rewrite B, C2. destruct (Z.eqb_spec x a); [contradiction|reflexivity].
  Qed.

  Lemma locked_session : forall os i s es before n ts pss after,
    run E (OInit :: os) (st0 i) = Ok (tt, s, es) -> logons os listener0 = [] ->
    taken os listener0 = before ++ repeat make_reset_packet (S n) ++ concat pss ++ after ->
    Forall2 turn_sent ts pss -> changing ts -> ending after ->
    let b := obey_all (e_east_west E) before (new_view (m i)) in
    v_service (fst b) = false -> Forall (allowed able) (snd b) ->
    (forall t r p, ts = t :: r -> service_packet (t_access t) = Ok p -> v_last (fst b) <> p) ->
    cvs_locked (switches (v_cvs (fst b))) = true ->
    (forall t, In t ts -> is_writing (t_access t) = false \/ target (t_access t) <> 14) ->
    seen_in es = snd b ++ Told (EServiceModeHook true) :: farewell after /\
    forall x, m (Rx.app s) x = v_cvs (fst b) x.
  Proof.
    intros os i s es before n ts pss after Hrun Hlo Htk Hf Hc He b Hs Hb Hl Hu Hn.
    assert (Hp : programmed (map t_access ts) (v_cvs (fst b)) = (v_cvs (fst b), [])).
    { clear - Hu Hn. induction ts as [|t ts IH]; [reflexivity|]. cbn [map programmed]. unfold permitted. rewrite Hu.
      destruct (Hn t (or_introl eq_refl)) as [C|C].
      - rewrite C. cbn [negb orb andb]. rewrite IH by (intros t' Ht'; apply Hn; right; exact Ht'). reflexivity.
      - destruct (Z.eqb_spec (target (t_access t)) 14) as [D|_]; [contradiction|]. rewrite ?andb_false_r. cbn [negb orb andb].
        rewrite IH by (intros t' Ht'; apply Hn; right; exact Ht'). reflexivity. }
    destruct (session_with_end (e_east_west E) before n ts pss after (new_view (m i)) Hf Hc Hs Hl He) as (A1 & A2 & A3).
    fold b in A1, A3. rewrite Hp in A1, A3. cbn [fst snd List.app] in A1, A3. rewrite <- Htk in A1, A2, A3.
    destruct (layout E m able Hk os i s es Hrun Hlo) as (B1 & B2 & B3 & _).
    { rewrite A3. apply Forall_app. split; [exact Hb|]. apply Forall_cons; [exact Logic.I|]. destruct after; repeat constructor. }
    rewrite B1, A3. split; [reflexivity|]. intro x. rewrite B2, A1. reflexivity.
  Qed.
End Calls.
