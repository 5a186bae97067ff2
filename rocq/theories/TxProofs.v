(** Proofs about the transmitter. *)
From Verif Require Import Prelude Packets Tx ZBits SpecCodec SpecTx CodecProofs CodecProofs2.
Ltac Zify.zify_post_hook ::= Z.div_mod_to_equations.

(** ** Refinement of the ring with a pointer to the abstract FIFO *)

(** The waiting packets in the ring *)
Definition ring_queue (s : tx_state) : list (list Z) :=
  map (fun i => nth ((tx_begin s + i) mod 4) (tx_slots s) []) (seq 0 (tx_size s)).

Definition cfg_valid (c : tx_config) : Prop := 0 <= num_preamble c <= 255.

Record R (s : tx_state) (a : atx) : Prop := MkR {
  R_slots : length (tx_slots s) = 4%nat;
  R_begin : (tx_begin s < 4)%nat;
  R_size : (tx_size s <= 3)%nat;
  R_queue : a_queue a = ring_queue s;
  R_ptr : tx_packet s = PIdle \/ tx_packet s = PSlot ((tx_begin s + 3) mod 4);
  R_now : a_now a = skipn (tx_packet_count s) (tx_current s);
  R_count : (tx_packet_count s <= length (tx_current s))%nat;
  R_first : a_first a = Nat.even (tx_packet_count s);
  R_cut : a_cut a = tx_bidi_count s;
  R_cfg : a_cfg a = tx_cfg s;
  R_valid : cfg_valid (tx_cfg s) }.

Lemma idle_timings_eq : idle_timings = idle_halves.
Proof. vm_compute. reflexivity. Qed.

Lemma R_init : R (tx_init_state 4) atx0.
Proof.
  split; try reflexivity; try (cbn; lia).
  - left. reflexivity.
  - vm_compute. split; discriminate.
Qed.

Lemma nth_error_skipn_hd : forall (l : list Z) n, nth_error l n = hd_error (skipn n l).
Proof. induction l as [|x l IH]; intros [|n]; cbn; auto. Qed.

Lemma skipn_cons : forall (l : list Z) n t r, skipn n l = t :: r -> skipn (S n) l = r /\ (S n <= length l)%nat.
Proof.
  induction l as [|x l IH]; intros [|n] t r H; cbn in *; try discriminate.
  - inversion H; subst. split; [reflexivity|lia].
  - apply IH in H. destruct H as [H1 H2]. split; [assumption|lia].
Qed.

Lemma even_S : forall n, Nat.even (S n) = negb (Nat.even n).
Proof. intros n. rewrite Nat.even_succ, <- Nat.negb_even. reflexivity. Qed.

Lemma packet_timing_sim : forall s a t r, R s a -> a_now a = t :: r -> exists s',
  packet_timing s = Ok (t, s', [if a_first a then first_half (a_cfg a) else second_half (a_cfg a)]) /\
  R s' (Atx (a_queue a) r (negb (a_first a)) (a_cut a) (a_cfg a)).
Proof.
  intros s a t r H Hn. pose proof H as [H1 H2 H3 H4 H5 H6 H7 H8 H9 H10 H11].
  unfold packet_timing. rewrite nth_error_skipn_hd, <- H6, Hn. cbn [hd_error].
  rewrite Hn in H6. symmetry in H6. apply skipn_cons in H6. destruct H6 as [S1 S2].
  eexists. split.
  - rewrite H8, H10. unfold first_half, second_half. rewrite !xorb_false_l, !xorb_true_l.
    destruct (Nat.even (tx_packet_count s)); reflexivity.
  - split; cbn; try assumption; try reflexivity.
    + symmetry. exact S1.
    + rewrite H8. symmetry. apply even_S.
Qed.

Definition sim (x : res (tx_out * tx_state)) (y : res (tx_out * atx)) : Prop :=
  match x, y with
  | Ok (o, s), Ok (o', a) => o = o' /\ R s a
  | UB r, UB r' => r = r'
  | _, _ => False
  end.

Lemma sim_init : forall c s a, R s a -> sim (tx_step (TInit c) s) (atx_step (TInit c) a).
Proof.
  intros c s a [H1 H2 H3 H4 H5 H6 H7 H8 H9 H10 H11]. cbn [tx_step atx_step]. unfold tx_init.
  unfold tx_min_preamble, tx_max_preamble, tx_bit1_min, tx_bit1_max, tx_bit0_min, tx_bit0_max.
  destruct (_ && _ && _ && _ && _ && _) eqn:E; cbn [rbind sim]; [|reflexivity].
  split; [reflexivity|].
  repeat rewrite andb_true_iff in E.
  split; cbn; try assumption; try reflexivity. unfold cfg_valid. lia.
Qed.

Lemma packet_halves_nonempty : forall c bs, packet_halves c bs <> [].
Proof.
  intros c bs H. apply (f_equal (@length Z)) in H. unfold packet_halves in H.
  rewrite timings_length in H. cbn in H. lia.
Qed.

Lemma sim_bytes : forall bs s a, R s a -> sim (tx_step (TBytes bs) s) (atx_step (TBytes bs) a).
Proof.
  intros bs s a [H1 H2 H3 H4 H5 H6 H7 H8 H9 H10 H11]. cbn [tx_step atx_step].
  assert (length (a_queue a) = tx_size s) as Hl
    by (rewrite H4; unfold ring_queue; rewrite map_length, seq_length; reflexivity).
  rewrite Hl. unfold tx_bytes, tx_deque_size, max_packet_size.
  destruct (tx_size s =? 3)%nat eqn:E3.
  { cbn [rbind sim]. split; [reflexivity|]. split; assumption. }
  apply Nat.eqb_neq in E3.
  destruct (length bs <=? 18)%nat eqn:E18; cbn [rbind sim]; [|reflexivity].
  apply Nat.leb_le in E18.
  rewrite bytes2timings_spec by assumption. fold (packet_halves (tx_cfg s) bs). rewrite H10.
  cbn [rbind sim]. split; [reflexivity|].
  remember (packet_halves (tx_cfg s) bs) as p. clear Heqp.
  destruct s as [slots b n ptr cnt bi cfg]. unfold ring_queue, ring_push, tx_current in *.
  cbn [tx_slots tx_begin tx_size tx_packet tx_packet_count tx_bidi_count tx_cfg] in *.
  destruct slots as [|x0 [|x1 [|x2 [|x3 [|]]]]]; try discriminate.
  assert (b = 0 \/ b = 1 \/ b = 2 \/ b = 3)%nat as Hb by lia.
  assert (n = 0 \/ n = 1 \/ n = 2)%nat as Hn by lia.
  destruct Hb as [->|[->|[->| ->]]]; destruct Hn as [->|[->| ->]];
    (split; cbn [tx_slots tx_begin tx_size tx_packet tx_packet_count tx_bidi_count tx_cfg
                 a_queue a_now a_first a_cut a_cfg]; try assumption; try reflexivity; try lia;
     try (rewrite H4; reflexivity);
     unfold tx_current; cbn [tx_packet tx_slots];
     destruct H5 as [->| ->]; assumption).
Qed.

(** Beginning of the next packet *)
Lemma sim_start : forall s a, R s a ->
  sim (rbind (packet_timing
         (if (tx_size s =? 0)%nat
          then TxState (tx_slots s) (tx_begin s) (tx_size s) PIdle 0 0 (tx_cfg s)
          else TxState (tx_slots s) ((tx_begin s + 1) mod length (tx_slots s))
                   (tx_size s - 1) (PSlot (tx_begin s)) 0 0 (tx_cfg s)))
         (fun '(t, s', ev) => Ok ((Some t, ev), s')))
      (match hd idle_halves (a_queue a) with
       | t :: r => Ok (atx_half t r (tl (a_queue a)) true 0 (tx_cfg s))
       | [] => UB OutOfBounds
       end).
Proof.
  intros s a [H1 H2 H3 H4 H5 H6 H7 H8 H9 H10 H11].
  set (s1 := if (tx_size s =? 0)%nat then _ else _).
  assert (R s1 (Atx (tl (a_queue a)) (hd idle_halves (a_queue a)) true 0 (tx_cfg s))) as HR.
  { unfold s1. rewrite H4. clear H4 H6 H7 H8 H9 H10 s1.
    destruct s as [slots b n ptr cnt bi cfg]. unfold ring_queue in *.
    cbn [tx_slots tx_begin tx_size tx_packet tx_packet_count tx_bidi_count tx_cfg] in *.
    destruct slots as [|x0 [|x1 [|x2 [|x3 [|]]]]]; try discriminate.
    assert (b = 0 \/ b = 1 \/ b = 2 \/ b = 3)%nat as Hb by lia.
    assert (n = 0 \/ n = 1 \/ n = 2 \/ n = 3)%nat as Hn by lia.
    destruct Hb as [->|[->|[->| ->]]]; destruct Hn as [->|[->|[->| ->]]];
      (split; cbn [Nat.eqb tx_slots tx_begin tx_size tx_packet tx_packet_count tx_bidi_count tx_cfg
                 a_queue a_now a_first a_cut a_cfg]; try assumption; try reflexivity; try lia;
       try (cbn; lia); try (left; reflexivity); try (right; reflexivity);
       cbn [skipn map seq hd]; unfold tx_current; cbn [tx_packet tx_slots];
       rewrite ?idle_timings_eq; try reflexivity; try (cbn; lia)). }
  destruct (hd idle_halves (a_queue a)) as [|t r] eqn:Eh.
  - (* impossible for real packets; both sides report it *)
    pose proof (R_now _ _ HR) as Hn. cbn [a_now] in Hn.
    unfold packet_timing. rewrite nth_error_skipn_hd, <- Hn. cbn. reflexivity.
  - destruct (packet_timing_sim s1 _ t r HR eq_refl) as (s' & E & HR'). rewrite E.
    cbn [rbind sim atx_half a_first a_cfg a_queue a_cut] in *. split; [reflexivity|exact HR'].
Qed.

Lemma sim_transmit : forall s a, R s a -> sim (tx_step TTransmit s) (atx_step TTransmit a).
Proof.
  intros s a H. pose proof H as [H1 H2 H3 H4 H5 H6 H7 H8 H9 H10 H11]. cbn [tx_step atx_step].
  unfold transmit.
  destruct (a_now a) as [|t r] eqn:En.
  - (* packet finished *)
    assert (tx_packet_count s = length (tx_current s)) as Hc.
    { symmetry in H6. apply (f_equal (@length Z)) in H6. rewrite skipn_length in H6. cbn in H6. lia. }
    rewrite Hc at 1. rewrite Nat.ltb_irrefl. rewrite H10, H9.
    destruct (cfg_bidi (tx_cfg s)) eqn:Eb; cbn [andb].
    + assert (Hcut : (tx_bidi_count s <= 4)%nat \/ (4 < tx_bidi_count s)%nat) by lia.
      destruct Hcut as [Hcut|Hcut].
      * (* cutout *)
        rewrite (proj2 (Nat.leb_le _ _) Hcut).
        assert (tx_bidi_count s = 0 \/ tx_bidi_count s = 1 \/ tx_bidi_count s = 2 \/
                tx_bidi_count s = 3 \/ tx_bidi_count s = 4)%nat as Hk by lia.
        unfold bidi_timing.
        destruct Hk as [E|[E|[E|[E|E]]]]; rewrite E; cbn [nth_error cutout rbind sim];
          (split; [unfold first_half; rewrite ?xorb_false_l, ?xorb_true_l; reflexivity|]);
          (split; cbn; try assumption; try reflexivity; try (rewrite H9, E; reflexivity)).
      * rewrite (proj2 (Nat.leb_gt _ _) Hcut).
        assert (nth_error (cutout (tx_cfg s)) (tx_bidi_count s) = None) as ->
          by (apply nth_error_None; cbn; lia).
        apply (sim_start s a); assumption.
    + apply (sim_start s a); assumption.
  - (* next half bit *)
    assert (tx_packet_count s < length (tx_current s))%nat as Hc.
    { symmetry in H6. apply skipn_cons in H6. lia. }
    rewrite (proj2 (Nat.ltb_lt _ _) Hc).
    destruct (packet_timing_sim s a t r H En) as (s' & E & HR). rewrite E.
    cbn [rbind sim atx_half]. split; [reflexivity|exact HR].
Qed.

Lemma sim_step : forall o s a, R s a -> sim (tx_step o s) (atx_step o a).
Proof. intros [c|bs|] s a H; [apply sim_init|apply sim_bytes|apply sim_transmit]; assumption. Qed.

Lemma sim_run : forall ops s a, R s a ->
  outcome (tx_run ops s) = outcome (atx_run ops a).
Proof.
  induction ops as [|o ops IH]; intros s a H; [reflexivity|].
  cbn [tx_run atx_run]. pose proof (sim_step o s a H) as Hs. unfold sim in Hs.
  destruct (tx_step o s) as [[x s']|r], (atx_step o a) as [[x' a']|r'];
    try contradiction; cbn [rbind outcome]; [|congruence].
  destruct Hs as [<- HR]. specialize (IH s' a' HR).
  destruct (tx_run ops s') as [[xs s'']|], (atx_run ops a') as [[xs' a'']|];
    cbn [rbind outcome] in *; congruence.
Qed.

Lemma tx_refines : forall ops,
  outcome (tx_run ops (tx_init_state 4)) = outcome (atx_run ops atx0).
Proof. intros. apply sim_run, R_init. Qed.

(** Reachable states are related to some abstract state *)
Lemma tx_reachable : forall ops s a, R s a -> forall xs s', tx_run ops s = Ok (xs, s') ->
  exists a', R s' a'.
Proof.
  induction ops as [|o ops IH]; intros s a H xs s' E.
  - inversion E; subst. exists a. assumption.
  - cbn [tx_run] in E. pose proof (sim_step o s a H) as Hs. unfold sim in Hs.
    destruct (tx_step o s) as [[x s1]|r], (atx_step o a) as [[x' a1]|r'];
      try contradiction; cbn [rbind] in E; try discriminate.
    destruct Hs as [_ HR]. destruct (tx_run ops s1) as [[ys s2]|] eqn:E2; [|discriminate].
    cbn [rbind] in E. apply Ok_inj in E. inversion E; subst. apply (IH s1 a1 HR ys s' E2).
Qed.

(** ** Queueing does not disturb the packet on the track *)

Lemma queueing_keeps_current : forall ops xs s bs s',
  tx_run ops (tx_init_state 4) = Ok (xs, s) -> tx_bytes bs s = Ok s' ->
  tx_current s' = tx_current s /\ tx_packet_count s' = tx_packet_count s /\
  tx_bidi_count s' = tx_bidi_count s.
Proof.
  intros ops xs s bs s' Hr Hb. destruct (tx_reachable _ _ _ R_init _ _ Hr) as (a & HR).
  destruct HR as [H1 H2 H3 H4 H5 H6 H7 H8 H9 H10 H11].
  unfold tx_bytes, tx_deque_size in Hb. destruct (tx_size s =? 3)%nat eqn:E3.
  { apply Ok_inj in Hb. subst. auto. }
  apply Nat.eqb_neq in E3. destruct (_ <=? _)%nat; [|discriminate].
  destruct (bytes2timings bs (tx_cfg s)) as [p|]; [|discriminate].
  cbn [rbind] in Hb. apply Ok_inj in Hb. subst s'. split; [|split; reflexivity].
  destruct s as [slots b n ptr cnt bi cfg]. unfold tx_current, ring_push.
  cbn [tx_slots tx_begin tx_size tx_packet tx_packet_count tx_bidi_count tx_cfg] in *.
  destruct slots as [|x0 [|x1 [|x2 [|x3 [|]]]]]; try discriminate.
  destruct H5 as [->| ->]; [reflexivity|].
  assert (b = 0 \/ b = 1 \/ b = 2 \/ b = 3)%nat as Hb by lia.
  assert (n = 0 \/ n = 1 \/ n = 2)%nat as Hn by lia.
  destruct Hb as [->|[->|[->| ->]]]; destruct Hn as [->|[->| ->]]; reflexivity.
Qed.

(** ** Histories *)

Lemma history_snoc : forall c h e, history_ok c h -> justified c h e -> history_ok c (h ++ [e]).
Proof.
  intros c h e Hh He h1 x h2 E.
  destruct h2 as [|y h2] using rev_ind.
  - apply app_inj_tail in E. destruct E as [<- <-]. assumption.
  - clear IHh2. rewrite app_comm_cons, app_assoc in E. apply app_inj_tail in E.
    destruct E as [E _]. apply (Hh h1 x h2 E).
Qed.

Lemma history_nil : forall c, history_ok c [].
Proof. intros c h1 e h2 E. destruct h1; discriminate. Qed.

Definition remaining (c : tx_config) (a : atx) : list (Z * list tx_event) :=
  alternate c (a_first a) (a_now a) ++ (if cfg_bidi c then skipn (a_cut a) (cutout c) else []).

Record HI (c : tx_config) (h : list entry) (a : atx) (ws : list (list Z)) : Prop := MkHI {
  HI_cfg : a_cfg a = c;
  HI_wait : waiting h ws;
  HI_queue : a_queue a = map (packet_halves c) ws;
  HI_len : (length ws <= 3)%nat;
  HI_track : ticks h ++ remaining c a = track c h;
  HI_ok : history_ok c h }.

Lemma queued_app : forall a b, queued (a ++ b) = queued a ++ queued b.
Proof. intros. apply flat_map_app. Qed.
Lemma sent_app : forall a b, sent (a ++ b) = sent a ++ sent b.
Proof. intros. apply flat_map_app. Qed.
Lemma ticks_app : forall a b, ticks (a ++ b) = ticks a ++ ticks b.
Proof. intros. apply flat_map_app. Qed.
Lemma started_app : forall a b, started (a ++ b) = started a ++ started b.
Proof. intros. apply flat_map_app. Qed.
Lemma track_app : forall c a b, track c (a ++ b) = track c a ++ flat_map (on_track c) (started b).
Proof.
  intros. unfold track. rewrite started_app. cbn [flat_map]. rewrite flat_map_app, app_assoc.
  reflexivity.
Qed.

Lemma skipn_nth : forall (l : list (Z * list tx_event)) n,
  skipn n l = match nth_error l n with Some x => x :: skipn (S n) l | None => [] end.
Proof.
  induction l as [|x l IH]; intros [|n]; try reflexivity. cbn [skipn nth_error]. rewrite IH. reflexivity.
Qed.

Lemma HI_step : forall c h a ws o, HI c h a ws -> plain_op o ->
  exists x a' h' ws', atx_step o a = Ok (x, a') /\ flat_map result_of h' = [x] /\
    flat_map call_of h' = [o] /\ HI c (h ++ h') a' ws'.
Proof.
  intros c h a ws o [H1 H2 H3 H4 H5 H6] Ho.
  destruct o as [c'|bs|]; [contradiction| |]; cbn [plain_op atx_step] in *.
  - (* bytes *)
    assert (length (a_queue a) = length ws) as Hl by (rewrite H3; apply map_length).
    rewrite Hl. destruct (length ws =? 3)%nat eqn:E3.
    + apply Nat.eqb_eq in E3. exists (None, []), a, [Refused bs], ws.
      split; [reflexivity|]. split; [reflexivity|]. split; [reflexivity|].
      split; try assumption.
      * unfold waiting. rewrite queued_app, sent_app. cbn. rewrite !app_nil_r. exact H2.
      * rewrite ticks_app, track_app. cbn. rewrite !app_nil_r. exact H5.
      * apply history_snoc; [assumption|]. exists ws. auto.
    + apply Nat.eqb_neq in E3.
      destruct (length bs <=? 18)%nat eqn:E18; [|apply Nat.leb_gt in E18; lia].
      exists (None, []), (Atx (a_queue a ++ [packet_halves (a_cfg a) bs]) (a_now a)
                               (a_first a) (a_cut a) (a_cfg a)), [Queued bs], (ws ++ [bs]).
      split; [reflexivity|]. split; [reflexivity|]. split; [reflexivity|].
      split; cbn [a_cfg a_queue]; try assumption.
      * unfold waiting. rewrite queued_app, sent_app. cbn. rewrite app_nil_r, app_assoc.
        f_equal. exact H2.
      * rewrite H3, map_app, H1. reflexivity.
      * rewrite app_length. cbn. lia.
      * rewrite ticks_app, track_app. cbn. rewrite !app_nil_r. exact H5.
      * apply history_snoc; [assumption|]. exists ws. split; [assumption|]. lia.
  - (* transmit *)
    unfold remaining in H5.
    destruct (a_now a) as [|t r] eqn:En.
    + cbn [alternate app] in H5. rewrite H1.
      destruct (if cfg_bidi c then nth_error (cutout c) (a_cut a) else None) as [[t ev]|] eqn:Ec.
      * (* cutout *)
        destruct (cfg_bidi c) eqn:Eb; [|discriminate].
        rewrite skipn_nth, Ec in H5.
        exists (Some t, ev), (Atx (a_queue a) [] (a_first a) (S (a_cut a)) c), [Tick (t, ev)], ws.
        split; [reflexivity|]. split; [reflexivity|]. split; [reflexivity|].
        split; cbn [a_cfg a_queue]; try assumption.
        -- reflexivity.
        -- unfold waiting. rewrite queued_app, sent_app. cbn. rewrite !app_nil_r. exact H2.
        -- rewrite ticks_app, track_app. unfold remaining. cbn [ticks started flat_map app a_now alternate a_cut].
           rewrite app_nil_r, Eb, <- app_assoc. exact H5.
        -- apply history_snoc; [assumption|]. exists ws. split; [assumption|]. eexists. exact H5.
      * (* next packet *)
        assert (ticks h = track c h) as Hdone.
        { rewrite <- H5. destruct (cfg_bidi c); [rewrite skipn_nth, Ec|]; rewrite app_nil_r; reflexivity. }
        assert (exists t r p, hd idle_halves (a_queue a) = t :: r /\
                  hd_error ws = p /\ t :: r = match p with None => idle_halves | Some bs => packet_halves c bs end)
          as (t & r & p & Eh & Ep & Et).
        { rewrite H3. destruct ws as [|w ws]; cbn [map hd hd_error].
          - destruct idle_halves as [|t r] eqn:Ei; [vm_compute in Ei; discriminate|].
            exists t, r, None. auto.
          - destruct (packet_halves c w) as [|t r] eqn:Ei; [apply packet_halves_nonempty in Ei; contradiction|].
            exists t, r, (Some w). auto. }
        rewrite Eh.
        exists (Some t, [first_half c]), (Atx (tl (a_queue a)) r false 0 c),
          [Started p; Tick (t, [first_half c])], (tl ws).
        split; [reflexivity|]. split; [reflexivity|]. split; [reflexivity|].
        assert (queued (h ++ [Started p]) = sent (h ++ [Started p]) ++ tl ws) as Hw.
        { rewrite queued_app, sent_app. cbn [queued flat_map]. rewrite app_nil_r.
          unfold waiting in H2. rewrite H2. destruct ws as [|w ws]; cbn [hd_error] in Ep; subst p; cbn.
          - rewrite !app_nil_r. reflexivity.
          - rewrite <- app_assoc. reflexivity. }
        assert (ticks (h ++ [Started p]) ++ (t, [first_half c]) ::
                   alternate c false r ++ (if cfg_bidi c then cutout c else [])
                = track c (h ++ [Started p])) as Ht.
        { rewrite ticks_app, track_app. cbn [ticks started flat_map]. rewrite !app_nil_r, Hdone.
          unfold on_track. cbn [flat_map]. rewrite <- Et, app_nil_r. reflexivity. }
        change [Started p; Tick (t, [first_half c])] with ([Started p] ++ [Tick (t, [first_half c])]).
        rewrite app_assoc.
        split; cbn [a_cfg a_queue]; try assumption.
        -- reflexivity.
        -- unfold waiting. rewrite queued_app, (sent_app _ [Tick _]). cbn [queued sent flat_map].
           rewrite !app_nil_r. exact Hw.
        -- rewrite H3. destruct ws; reflexivity.
        -- destruct ws; cbn [tl length] in *; lia.
        -- rewrite ticks_app, (track_app c _ [Tick _]). unfold remaining.
           cbn [ticks started flat_map a_now alternate a_cut a_first skipn].
           rewrite app_nil_r, <- app_assoc. cbn [app flat_map]. rewrite app_nil_r. exact Ht.
        -- apply history_snoc; [apply history_snoc; [assumption|]|].
           ++ exists ws. split; [assumption|]. destruct p as [w|].
              ** split; assumption.
              ** split; [|assumption]. destruct ws; [reflexivity|discriminate].
           ++ exists (tl ws). split; [exact Hw|]. eexists. exact Ht.
    + (* half bit *)
      cbn [alternate] in H5.
      eexists _, _, [Tick (t, [if a_first a then first_half c else second_half c])], ws.
      unfold atx_half. rewrite H1. split; [reflexivity|]. split; [reflexivity|]. split; [reflexivity|].
      split; cbn [a_cfg a_queue]; try assumption.
      * reflexivity.
      * unfold waiting. rewrite queued_app, sent_app. cbn. rewrite !app_nil_r. exact H2.
      * rewrite ticks_app, track_app. unfold remaining. cbn [ticks started flat_map app a_now alternate a_cut a_first].
        rewrite app_nil_r, <- app_assoc. exact H5.
      * apply history_snoc; [assumption|]. exists ws. split; [assumption|]. eexists. exact H5.
Qed.

Lemma HI_run : forall ops c h a ws, HI c h a ws -> Forall plain_op ops ->
  exists xs a' h' ws', atx_run ops a = Ok (xs, a') /\ flat_map result_of h' = xs /\
    flat_map call_of h' = ops /\ HI c (h ++ h') a' ws'.
Proof.
  induction ops as [|o ops IH]; intros c h a ws H Ho.
  - exists [], a, [], ws. rewrite app_nil_r. auto.
  - inversion Ho; subst. destruct (HI_step c h a ws o H) as (x & a1 & h1 & ws1 & E & Er & Ec & H'); [assumption|].
    destruct (IH c (h ++ h1) a1 ws1 H') as (xs & a2 & h2 & ws2 & E2 & Er2 & Ec2 & H''); [assumption|].
    exists (x :: xs), a2, (h1 ++ h2), ws2. cbn [atx_run]. rewrite E. cbn [rbind]. rewrite E2. cbn [rbind].
    split; [reflexivity|]. rewrite !flat_map_app, Er, Er2, Ec, Ec2. split; [reflexivity|].
    split; [reflexivity|]. rewrite app_assoc. assumption.
Qed.

Lemma HI_init : forall c, HI c [] (Atx [] idle_halves true 0 c) [].
Proof.
  intros c. split; try reflexivity; try (cbn; lia); [|apply history_nil].
  unfold remaining, track, on_track. cbn [ticks started flat_map app a_now a_first a_cut skipn].
  rewrite app_nil_r. reflexivity.
Qed.

Lemma init_ok : forall c, config_ok c ->
  atx_step (TInit c) atx0 = Ok ((None, []), Atx [] idle_halves true 0 c).
Proof.
  intros c (H1 & H2 & H3). cbn [atx_step].
  replace (_ && _ && _ && _ && _ && _) with true; [reflexivity|].
  symmetry. repeat rewrite andb_true_iff. lia.
Qed.

Lemma tx_history : forall c ops, config_ok c -> Forall plain_op ops ->
  exists xs s h, tx_run (TInit c :: ops) (tx_init_state 4) = Ok ((None, []) :: xs, s) /\
    flat_map call_of h = ops /\ flat_map result_of h = xs /\ history_ok c h.
Proof.
  intros c ops Hc Ho. pose proof (tx_refines (TInit c :: ops)) as Hr.
  cbn [atx_run] in Hr. rewrite init_ok in Hr by assumption. cbn [rbind] in Hr.
  destruct (HI_run ops c [] _ [] (HI_init c) Ho) as (xs & a' & h & ws & E & Er & Ec & HH).
  rewrite E in Hr. cbn [rbind outcome] in Hr.
  destruct (tx_run (TInit c :: ops) (tx_init_state 4)) as [[ys s]|]; [|discriminate].
  cbn [outcome] in Hr. apply Ok_inj in Hr. subst ys.
  exists xs, s, h. split; [reflexivity|]. split; [assumption|]. split; [assumption|].
  apply (HI_ok _ _ _ _ HH).
Qed.

(** ** Track outputs *)

Definition outputs_ok (x : tx_out) : Prop :=
  match snd x with
  | [TrackOutputs n p] => n = negb p
  | [TrackOutputs n p; BiDiStart] => n = false /\ p = false /\ fst x = Some 51
  | ev => ~ exists n p, In (TrackOutputs n p) ev
  end.

Lemma half_outputs_ok : forall t (f : bool) c, outputs_ok (t, [if f then first_half c else second_half c]).
Proof. intros t [|] c; cbn; destruct (cfg_invert c); reflexivity. Qed.

Lemma atx_outputs_ok : forall o a x a', atx_step o a = Ok (x, a') -> outputs_ok x.
Proof.
  intros o a x a' H. assert (outputs_ok (None, [])) as H0 by (cbn; intros (n & p & [])).
  destruct o; cbn [atx_step] in H.
  - destruct (_ && _ && _ && _ && _ && _) in H; inversion H; subst; assumption.
  - destruct (_ =? _)%nat; [inversion H; subst; assumption|].
    destruct (_ <=? _)%nat; inversion H; subst; assumption.
  - destruct (a_now a) as [|t r].
    + destruct (if cfg_bidi (a_cfg a) then nth_error (cutout (a_cfg a)) (a_cut a) else None)
        as [[t ev]|] eqn:E.
      * inversion H; subst. destruct (cfg_bidi (a_cfg a)); [|discriminate].
        apply nth_error_In in E. cbn [cutout In] in E.
        destruct E as [E|[E|[E|[E|[E|[]]]]]]; inversion E; subst; cbn.
        -- destruct (cfg_invert (a_cfg a)); reflexivity.
        -- auto.
        -- intros (n & p & [K|[]]). discriminate.
        -- intros (n & p & [K|[]]). discriminate.
        -- intros (n & p & [K|[]]). discriminate.
      * destruct (hd idle_halves (a_queue a)) as [|t r]; [discriminate|].
        inversion H; subst. apply (half_outputs_ok _ true).
    + inversion H; subst. apply half_outputs_ok.
Qed.

Lemma atx_run_outputs : forall ops a xs a', atx_run ops a = Ok (xs, a') -> Forall outputs_ok xs.
Proof.
  induction ops as [|o ops IH]; intros a xs a' H.
  - inversion H. constructor.
  - cbn [atx_run] in H. destruct (atx_step o a) as [[x a1]|] eqn:E1; [|discriminate].
    cbn [rbind] in H. destruct (atx_run ops a1) as [[ys a2]|] eqn:E2; [|discriminate].
    cbn [rbind] in H. inversion H; subst. constructor.
    + apply (atx_outputs_ok _ _ _ _ E1).
    + apply (IH _ _ _ E2).
Qed.

Lemma tx_outputs_ok : forall ops xs s, tx_run ops (tx_init_state 4) = Ok (xs, s) -> Forall outputs_ok xs.
Proof.
  intros ops xs s H. pose proof (tx_refines ops) as Hr. rewrite H in Hr. cbn [outcome] in Hr.
  destruct (atx_run ops atx0) as [[ys a]|] eqn:E; [|discriminate].
  cbn [outcome] in Hr. apply Ok_inj in Hr. subst ys. apply (atx_run_outputs _ _ _ _ E).
Qed.

Lemma outputs_never_both : forall ops xs s t ev n p, tx_run ops (tx_init_state 4) = Ok (xs, s) ->
  In (t, ev) xs -> In (TrackOutputs n p) ev ->
  n && p = false /\ (n = false /\ p = false -> t = Some 51 /\ ev = [TrackOutputs false false; BiDiStart]).
Proof.
  intros ops xs s t ev n p H Hin Hev. apply tx_outputs_ok in H. rewrite Forall_forall in H.
  specialize (H _ Hin). unfold outputs_ok in H. cbn [snd fst] in H.
  assert (~ (exists n p, In (TrackOutputs n p) ev) -> False) as Hno
    by (intros K; apply K; exists n, p; exact Hev).
  destruct ev as [|e1 ev]; [contradiction|]. destruct e1; try contradiction.
  destruct ev as [|e2 ev].
  - destruct Hev as [Hev|[]]. inversion Hev; subst. destruct p; split; try reflexivity;
      intros [A B]; discriminate.
  - destruct e2; try contradiction. destruct ev; try contradiction.
    destruct H as (-> & -> & ->). destruct Hev as [Hev|[Hev|[]]]; [|discriminate].
    inversion Hev; subst. auto.
Qed.

(** ** The spare slot is needed *)

Definition overwrite_schedule : list tx_op :=
  [TBytes [1]] ++ repeat TTransmit 96 ++ [TBytes [2]; TBytes [3]; TBytes [4]] ++ repeat TTransmit 60.

Lemma three_slots_overwrite : outcome (tx_run overwrite_schedule (tx_init_state 3))
  <> outcome (atx_run overwrite_schedule atx0).
Proof. vm_compute. discriminate. Qed.

(** ** Idle packets ignore the configuration *)

Lemma idle_ignores_config : exists c xs s, config_ok c /\
  tx_run (TInit c :: repeat TTransmit 90) (tx_init_state 4) = Ok (xs, s) /\
  flat_map (fun x => match fst x with Some t => [t] | None => [] end) xs
  <> packet_halves c [0xFF; 0x00; 0xFF].
Proof.
  exists (TxConfig 17 60 100 false true). eexists _, _. split; [unfold config_ok; cbn; lia|].
  split; [vm_compute; reflexivity|]. vm_compute. discriminate.
Qed.

(** ** Corollaries of the history theorem *)

Lemma ticks_prefix : forall c h, history_ok c h -> exists rest, ticks h ++ rest = track c h.
Proof.
  intros c h H. induction h as [|e h IH] using rev_ind.
  - exists (track c []). reflexivity.
  - assert (history_ok c h) as H'.
    { intros h1 x h2 E. apply (H h1 x (h2 ++ [e])). rewrite E, <- app_assoc. reflexivity. }
    destruct (IH H') as (rest & Hr). specialize (H h e [] eq_refl). destruct H as (ws & Hw & Hj).
    rewrite ticks_app, track_app. destruct e as [bs|bs|p|x]; cbn [ticks started flat_map app];
      rewrite ?app_nil_r.
    + exists rest. exact Hr.
    + exists rest. exact Hr.
    + assert (ticks h = track c h) as -> by (destruct p; apply Hj). eexists. reflexivity.
    + destruct Hj as (rest' & Hj). exists rest'. rewrite <- app_assoc. exact Hj.
Qed.

Lemma outputs_app : forall a b, outputs (a ++ b) = outputs a ++ outputs b.
Proof. intros. apply flat_map_app. Qed.
Lemma intervals_app : forall a b, intervals (a ++ b) = intervals a ++ intervals b.
Proof. intros. apply flat_map_app. Qed.
Lemma callbacks_app : forall a b, callbacks (a ++ b) = callbacks a ++ callbacks b.
Proof. intros. apply flat_map_app. Qed.
Lemma ticks_cons : forall e h, ticks (e :: h) = ticks [e] ++ ticks h.
Proof. intros. apply (ticks_app [e] h). Qed.

Lemma intervals_ticks : forall h, intervals (flat_map result_of h) = ticks h.
Proof.
  induction h as [|e h IH]; [reflexivity|]. cbn [flat_map].
  rewrite ticks_cons, ?map_app, ?intervals_app, IH.
  destruct e as [bs|bs|p|[t ev]]; reflexivity.
Qed.

Lemma outputs_ticks : forall h, outputs (flat_map result_of h)
  = outputs (map (fun x => (Some (fst x), snd x)) (ticks h)).
Proof.
  induction h as [|e h IH]; [reflexivity|]. cbn [flat_map].
  rewrite ticks_cons, ?map_app, ?outputs_app, IH.
  destruct e as [bs|bs|p|[t ev]]; reflexivity.
Qed.

(** Everything returned is the idle packet and then complete packets, each with its cutout *)
Lemma tx_intervals : forall c ops, config_ok c -> Forall plain_op ops ->
  exists xs s ps rest, tx_run (TInit c :: ops) (tx_init_state 4) = Ok (xs, s) /\
    intervals xs ++ rest = flat_map (on_track c) (None :: ps) /\
    forall bs, In (Some bs) ps -> In (TBytes bs) ops.
Proof.
  intros c ops Hc Ho. destruct (tx_history c ops Hc Ho) as (xs & s & h & Hr & Hcalls & Hres & Hok).
  destruct (ticks_prefix c h Hok) as (rest & Hp).
  exists ((None, []) :: xs), s, (started h), rest. split; [exact Hr|]. split.
  - subst xs. cbn [intervals flat_map fst]. cbn [app].
    change (flat_map _ (flat_map result_of h)) with (intervals (flat_map result_of h)).
    rewrite intervals_ticks. exact Hp.
  - (* every started packet was queued *)
    intros bs Hin. unfold started in Hin. apply in_flat_map in Hin. destruct Hin as (e & Hin & He).
    destruct e as [| |p|]; try contradiction. destruct He as [->|[]].
    apply in_split in Hin. destruct Hin as (h1 & h2 & E).
    destruct (Hok h1 _ h2 E) as (ws & Hw & Hd & _). unfold waiting in Hw.
    assert (In bs (queued h1)) as Hq.
    { rewrite Hw. apply in_or_app. right. destruct ws; [discriminate|]. inversion Hd; subst. left. reflexivity. }
    unfold queued in Hq. apply in_flat_map in Hq. destruct Hq as (q & Hq & Hb).
    destruct q; try contradiction. destruct Hb as [->|[]].
    rewrite <- Hcalls, E, flat_map_app. apply in_or_app. left. apply in_flat_map.
    exists (Queued bs). split; [assumption|left; reflexivity].
Qed.

Definition some_out (x : Z * list tx_event) : tx_out := (Some (fst x), snd x).

Lemma flipping_app : forall c os ps prev,
  flipping c prev (os ++ ps) -> flipping c prev os.
Proof.
  induction os as [|o os IH]; intros ps prev H; [exact I|]. cbn in *. destruct H as [H1 H2].
  split; [assumption|]. apply (IH ps). assumption.
Qed.

(** Previous outputs after which a first half may come *)
Definition before_first (c : tx_config) (prev : option (bool * bool)) : Prop :=
  prev = None \/ prev = Some (false, false) \/ prev = Some (negb (cfg_invert c), cfg_invert c).

Lemma flipping_halves : forall c ts prev tail,
  before_first c prev -> Nat.even (length ts) = true ->
  (forall prev', before_first c prev' -> flipping c prev' tail) ->
  flipping c prev (outputs (map some_out (alternate c true ts)) ++ tail).
Proof.
  intros c ts. remember (length ts) as n eqn:En. revert ts En.
  induction n as [n IH] using lt_wf_ind; intros ts En prev tail Hb He Ht.
  destruct ts as [|t [|u ts]].
  - cbn. apply Ht. assumption.
  - subst n. discriminate.
  - cbn [alternate map outputs some_out flat_map snd first_half second_half negb app].
    change (flat_map _ (map some_out (alternate c true ts)))
      with (outputs (map some_out (alternate c true ts))).
    cbn [flipping]. split; [|split].
    + unfold next_outputs. destruct Hb as [->|[->| ->]]; try reflexivity.
      destruct (cfg_invert c); cbn; left; reflexivity.
    + unfold next_outputs. destruct (cfg_invert c); cbn; left; reflexivity.
    + apply (IH (length ts)); try reflexivity; try (subst n; cbn; lia).
      * right. right. reflexivity.
      * subst n. cbn [length Nat.even] in He. exact He.
      * exact Ht.
Qed.

Lemma halves_even : forall d1 d0 n bs, Nat.even (length (half_bits d1 d0 (track_bits n bs))) = true.
Proof. intros. rewrite timings_length. apply Nat.even_spec. eexists. reflexivity. Qed.

Lemma flipping_track : forall c ps prev, before_first c prev ->
  flipping c prev (outputs (map some_out (flat_map (on_track c) ps))).
Proof.
  intros c. induction ps as [|p ps IH]; intros prev Hb; [exact I|].
  cbn [flat_map]. unfold on_track at 1. rewrite <- app_assoc, map_app, outputs_app.
  apply flipping_halves; [assumption| |].
  - destruct p; apply halves_even.
  - intros prev' Hb'. rewrite map_app, outputs_app. destruct (cfg_bidi c) eqn:Eb.
    + cbn [cutout map some_out outputs flat_map fst snd first_half app].
      change (flat_map _ (map some_out (flat_map (on_track c) ps)))
        with (outputs (map some_out (flat_map (on_track c) ps))).
      cbn [flipping]. split; [|split].
      * unfold next_outputs. destruct Hb' as [->|[->| ->]]; try reflexivity.
        destruct (cfg_invert c); cbn; left; reflexivity.
      * unfold next_outputs. rewrite Eb. destruct (cfg_invert c); cbn; right; auto.
      * apply IH. right. left. reflexivity.
    + cbn [map outputs flat_map app]. apply IH. assumption.
Qed.

Lemma tx_flipping : forall c ops, config_ok c -> Forall plain_op ops ->
  exists xs s, tx_run (TInit c :: ops) (tx_init_state 4) = Ok (xs, s) /\
    flipping c None (outputs xs).
Proof.
  intros c ops Hc Ho. destruct (tx_history c ops Hc Ho) as (xs & s & h & Hr & Hcalls & Hres & Hok).
  destruct (ticks_prefix c h Hok) as (rest & Hp).
  exists ((None, []) :: xs), s. split; [exact Hr|]. subst xs.
  change (outputs ((None, []) :: flat_map result_of h)) with (outputs (flat_map result_of h)).
  rewrite outputs_ticks. apply (flipping_app c _ (outputs (map some_out rest))).
  change (fun x : Z * list tx_event => (Some (fst x), snd x)) with some_out.
  rewrite <- outputs_app, <- map_app, Hp. apply flipping_track. left. reflexivity.
Qed.

(** No callbacks without BiDi *)
Lemma tx_no_bidi : forall c ops, config_ok c -> Forall plain_op ops -> cfg_bidi c = false ->
  exists xs s, tx_run (TInit c :: ops) (tx_init_state 4) = Ok (xs, s) /\ callbacks xs = [].
Proof.
  intros c ops Hc Ho Hb. destruct (tx_history c ops Hc Ho) as (xs & s & h & Hr & Hcalls & Hres & Hok).
  destruct (ticks_prefix c h Hok) as (rest & Hp).
  exists ((None, []) :: xs), s. split; [exact Hr|]. subst xs.
  change (callbacks ((None, []) :: flat_map result_of h)) with (callbacks (flat_map result_of h)).
  assert (callbacks (flat_map result_of h) = callbacks (map some_out (ticks h))) as ->.
  { clear. induction h as [|e h IH]; [reflexivity|]. cbn [flat_map].
    rewrite ticks_cons, ?map_app, ?callbacks_app, IH.
    destruct e as [bs|bs|p|[t ev]]; reflexivity. }
  assert (forall ps, callbacks (map some_out (flat_map (on_track c) ps)) = []) as L.
  { induction ps as [|p ps IH]; [reflexivity|]. cbn [flat_map]. unfold on_track at 1.
    rewrite Hb, app_nil_r, map_app, callbacks_app, IH, app_nil_r.
    generalize true as f.
    induction (match p with None => idle_halves | Some bs => packet_halves c bs end) as [|t ts IHt];
      intros f; [reflexivity|].
    destruct f.
    - change (callbacks (map some_out (alternate c false ts)) = []). apply IHt.
    - change (callbacks (map some_out (alternate c true ts)) = []). apply IHt. }
  specialize (L (None :: started h)). fold (track c h) in L. rewrite <- Hp, map_app in L.
  rewrite callbacks_app in L. apply app_eq_nil in L. apply L.
Qed.

(** ** Reconfiguration *)

Lemma atx_run_app : forall p q a xs a1, atx_run p a = Ok (xs, a1) ->
  atx_run (p ++ q) a = rbind (atx_run q a1) (fun '(ys, a2) => Ok (xs ++ ys, a2)).
Proof.
  induction p as [|o p IH]; intros q a xs a1 H.
  - inversion H; subst. cbn [app]. destruct (atx_run q a1) as [[ys a2]|]; reflexivity.
  - cbn [atx_run app] in *. destruct (atx_step o a) as [[x a']|]; [|discriminate]. cbn [rbind] in *.
    destruct (atx_run p a') as [[ys a2]|] eqn:E; [|discriminate]. cbn [rbind] in H.
    inversion H; subst. rewrite (IH q a' ys a1 E).
    destruct (atx_run q a1) as [[zs a3]|]; reflexivity.
Qed.

Lemma reconfigured : forall before c bs after xs a, config_ok c -> (length bs <= 18)%nat ->
  atx_run before atx0 = Ok (xs, a) -> (length (a_queue a) < 3)%nat ->
  outcome (tx_run (before ++ TInit c :: TBytes bs :: after) (tx_init_state 4)) =
  rbind (outcome (atx_run after
           (Atx (a_queue a ++ [packet_halves c bs]) (a_now a) (a_first a) (a_cut a) c)))
        (fun ys => Ok (xs ++ (None, []) :: (None, []) :: ys)).
Proof.
  intros before c bs after xs a (H1 & H2 & H3) Hl Ha Hq. rewrite tx_refines.
  rewrite (atx_run_app before _ atx0 xs a Ha). cbn [atx_run atx_step].
  replace (_ && _ && _ && _ && _ && _) with true
    by (symmetry; repeat rewrite andb_true_iff; lia).
  cbn [rbind a_queue a_now a_first a_cut a_cfg].
  replace (length (a_queue a) =? 3)%nat with false by (symmetry; apply Nat.eqb_neq; lia).
  replace (length bs <=? 18)%nat with true by (symmetry; apply Nat.leb_le; lia).
  cbn [rbind]. destruct (atx_run after _) as [[ys a2]|]; reflexivity.
Qed.
