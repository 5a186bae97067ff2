(** Interrupted calls of the transmitter: proofs *)
From Verif Require Import Prelude Address Packets SpecCodec SpecTx TxProofs Tx CodecProofs2 RxState Rx SpecRx SpecExec SpecConf SpecCv SpecBidi SpecSafe
  SpecLayout SpecStation StationProofs2 StationProofs4 TxPreempt SpecTxPreempt.

(** ** A store into the free slot does not disturb transmit() *)

Lemma transmit_put : forall v s a, R s a -> (tx_size s < 3)%nat ->
  transmit (put_slot v s) = rbind (transmit s) (fun '(t, s', ev) => Ok (t, put_slot v s', ev)).
Proof.
  intros v s a HR Hn. destruct HR as [H1 H2 _ _ H5 _ _ _ _ _ _]. destruct s as [slots b n ptr cnt bi cfg].
  cbn [tx_slots tx_begin tx_size tx_packet] in *.
  destruct slots as [|x0 [|x1 [|x2 [|x3 [|]]]]]; try discriminate. clear H1.
  assert (b = 0 \/ b = 1 \/ b = 2 \/ b = 3)%nat as Hb by lia. assert (n = 0 \/ n = 1 \/ n = 2)%nat as Hm by lia. clear H2 Hn.
  unfold transmit, packet_timing, bidi_timing, tx_current, put_slot.
  cbn [tx_slots tx_begin tx_size tx_packet tx_packet_count tx_bidi_count tx_cfg length].
  destruct Hb as [->|[->|[->| ->]]]; destruct Hm as [->|[->| ->]]; destruct H5 as [->| ->];
    cbn [Nat.add Nat.sub Nat.modulo Nat.divmod fst snd list_set nth Nat.eqb length tx_slots tx_begin tx_size tx_packet tx_packet_count tx_bidi_count tx_cfg];
    repeat first [reflexivity | match goal with
      | |- context [if ?x then _ else _] => destruct x
      | |- context [match nth_error ?x ?y with _ => _ end] => destruct (nth_error x y)
      | |- context [match ?x with 0%nat => _ | S _ => _ end] => destruct x
      end; cbn [rbind tx_slots tx_begin tx_size tx_packet tx_packet_count tx_bidi_count tx_cfg Nat.add Nat.sub Nat.modulo Nat.divmod fst snd list_set nth Nat.eqb length] ].
Qed.

Lemma transmit_keeps : forall s t s' ev, transmit s = Ok (t, s', ev) -> tx_cfg s' = tx_cfg s /\ (tx_size s' <= tx_size s)%nat.
Proof.
  intros s t s' ev H. unfold transmit in H.
  assert (K : forall z, packet_timing z = Ok (t, s', ev) -> tx_cfg s' = tx_cfg z /\ tx_size s' = tx_size z).
  { intros z Hz. unfold packet_timing in Hz. destruct (nth_error _ _); [|discriminate]. cbv zeta in Hz.
    destruct (Nat.even _); injection Hz as _ <- _; auto. }
  destruct (_ <? _)%nat. { destruct (K _ H) as [-> ->]. auto. }
  destruct (_ && _).
  { unfold bidi_timing in H. cbv zeta in H. destruct (tx_bidi_count s) as [|[|[|[|]]]]; injection H as _ <- _; auto. }
  cbv zeta in H. destruct (tx_size s =? 0)%nat eqn:E0; destruct (K _ H) as [-> ->]; cbn [tx_cfg tx_size]; split; try reflexivity; lia.
Qed.

(** ** Simulation *)

Definition in_call (g : stage) : option (list Z) :=
  match g with SIdle => None | SFull bs | SConfig bs | SBuilt bs _ | SCopy bs _ _ => Some bs end.

(** [s] is the state with the call in progress, [t] without *)
Definition explains (g : stage) (s t : tx_state) : Prop :=
  match g with
  | SIdle | SFull _ => s = t
  | SConfig _ => s = t /\ (tx_size t < 3)%nat
  | SBuilt bs ts => s = t /\ (tx_size t < 3)%nat /\ bytes2timings bs (tx_cfg t) = Ok ts
  | SCopy bs ts k => s = put_slot (firstn k ts) t /\ (tx_size t < 3)%nat /\ bytes2timings bs (tx_cfg t) = Ok ts
  end.

Lemma put_put : forall v w s, put_slot v (put_slot w s) = put_slot v s.
Proof.
  assert (Hset : forall (l : list (list Z)) i v w, list_set (list_set l i w) i v = list_set l i v).
  { induction l as [|x l IH]; intros [|i] v w; try reflexivity. cbn [list_set]. rewrite IH. reflexivity. }
  assert (Hlen : forall (l : list (list Z)) i v, length (list_set l i v) = length l).
  { induction l as [|x l IH]; intros [|i] v; try reflexivity. cbn [list_set length]. rewrite IH. reflexivity. }
  intros v w s. unfold put_slot. cbn [tx_slots tx_begin tx_size tx_packet tx_packet_count tx_bidi_count tx_cfg].
  rewrite Hlen, Hset. reflexivity.
Qed.

Lemma tx_run_snoc : forall ops o s xs s1, tx_run ops s = Ok (xs, s1) ->
  tx_run (ops ++ [o]) s = rbind (tx_step o s1) (fun '(x, s2) => Ok (xs ++ [x], s2)).
Proof.
  induction ops as [|p ops IH]; intros o s xs s1 H; cbn [List.app tx_run] in *.
  - injection H as <- <-. destruct (tx_step o s) as [[x s2]|]; reflexivity.
  - destruct (tx_step p s) as [[x s2]|]; [|discriminate]. cbn [rbind] in *. destruct (tx_run ops s2) as [[ys s3]|] eqn:E; [|discriminate].
    cbn [rbind] in H. injection H as <- <-. rewrite (IH o s2 ys s3 E). destruct (tx_step o s3) as [[z s4]|]; reflexivity.
Qed.
Lemma xrun_snoc : forall xs o x, xrun (xs ++ [o]) x = rbind (xrun xs x) (fun '(a, y) => rbind (xstep o y) (fun '(b, z) => Ok (a ++ b, z))).
Proof.
  induction xs as [|p xs IH]; intros o x; cbn [List.app xrun].
  - cbn [rbind]. destruct (xstep o x) as [[a y]|]; cbn [rbind]; [|reflexivity]. rewrite app_nil_r. reflexivity.
  - destruct (xstep p x) as [[a y]|]; cbn [rbind]; [|reflexivity]. rewrite IH. destruct (xrun xs y) as [[b z]|]; cbn [rbind]; [|reflexivity].
    destruct (xstep o z) as [[d w]|]; cbn [rbind]; [|reflexivity]. rewrite app_assoc. reflexivity.
Qed.

Theorem linear : forall c xs s0, config_ok c -> (forall bs, In (XCall bs) xs -> (length bs <= 18)%nat) ->
  tx_init c (tx_init_state 4) = Ok s0 ->
  exists outs g s ops os t, xrun xs (SIdle, s0) = Ok (outs, (g, s)) /\ placed xs (in_call g) ops /\ Forall plain_op ops /\
    tx_run (TInit c :: ops) (tx_init_state 4) = Ok ((None, []) :: os, t) /\ outs = intervals os /\ explains g s t /\
    match in_call g with Some bs => (length bs <= 18)%nat | None => True end.
Proof.
  intros c xs s0 Hc Hl H0. induction xs as [|o xs IH] using rev_ind.
  { exists [], SIdle, s0, [], [], s0. split; [reflexivity|]. split; [apply PNone|]. split; [constructor|]. split; [|split; [reflexivity|split; reflexivity]].
    cbn [tx_run tx_step]. rewrite H0. reflexivity. }
  destruct IH as (outs & g & s & ops & os & t & Hx & Hp & Hpl & Ht & -> & He & Hb); [intros bs Hi; apply Hl, in_or_app; auto|].
  rewrite xrun_snoc, Hx. cbn [rbind].
  destruct (tx_reachable _ _ _ R_init _ _ Ht) as (a & HR).
  (* an uninterrupted call more *)
  assert (More : forall p, plain_op p -> exists x t', tx_step p t = Ok (x, t') /\
    tx_run (TInit c :: ops ++ [p]) (tx_init_state 4) = Ok ((None, []) :: os ++ [x], t')).
  { intros p Hp'. destruct (tx_history c (ops ++ [p]) Hc) as (ys & t' & _ & Hy & _); [apply Forall_app; split; [exact Hpl|constructor; [exact Hp'|constructor]]|].
    change (TInit c :: ops ++ [p]) with ((TInit c :: ops) ++ [p]) in *. rewrite (tx_run_snoc _ p _ _ _ Ht) in *.
    destruct (tx_step p t) as [[x t1]|]; [|discriminate]. exists x, t1. split; reflexivity. }
  destruct o as [bs| |].
  - (* call *)
    cbn [xstep rbind]. rewrite app_nil_r. destruct g as [|bs'|bs'|bs' ts|bs' ts k].
    + exists (intervals os), (SFull bs), s, ops, os, t. repeat (split; [first [reflexivity|assumption|apply PCall; exact Hp]|]).
      apply Hl, in_or_app. right. left. reflexivity.
    + exists (intervals os), (SFull bs'), s, ops, os, t. repeat (split; [first [reflexivity|assumption|apply PBusy; exact Hp]|]). exact Hb.
    + exists (intervals os), (SConfig bs'), s, ops, os, t. repeat (split; [first [reflexivity|assumption|apply PBusy; exact Hp]|]). exact Hb.
    + exists (intervals os), (SBuilt bs' ts), s, ops, os, t. repeat (split; [first [reflexivity|assumption|apply PBusy; exact Hp]|]). exact Hb.
    + exists (intervals os), (SCopy bs' ts k), s, ops, os, t. repeat (split; [first [reflexivity|assumption|apply PBusy; exact Hp]|]). exact Hb.
  - (* step *)
    cbn [xstep]. destruct g as [|bs|bs|bs ts|bs ts k]; cbn [bytes_step rbind explains in_call] in *.
    + rewrite app_nil_r. exists (intervals os), SIdle, s, ops, os, t. repeat (split; [first [reflexivity|assumption|apply PStep; exact Hp]|]). exact Logic.I.
    + subst s. rewrite app_nil_r. unfold tx_deque_size. destruct (tx_size t =? 3)%nat eqn:E3.
      * destruct (More (TBytes bs) Hb) as (x & t' & Hs & Hr). cbn [tx_step] in Hs. unfold tx_bytes, tx_deque_size in Hs. rewrite E3 in Hs.
        cbn [rbind] in Hs. injection Hs as <- <-. exists (intervals os), SIdle, t, (ops ++ [TBytes bs]), (os ++ [(None, [])]), t.
        split; [reflexivity|]. split; [apply PEffect; exact Hp|]. split; [apply Forall_app; split; [exact Hpl|constructor; [exact Hb|constructor]]|].
        split; [exact Hr|]. split; [rewrite intervals_app; cbn; rewrite app_nil_r; reflexivity|]. split; [reflexivity|exact Logic.I].
      * exists (intervals os), (SConfig bs), t, ops, os, t. apply Nat.eqb_neq in E3. pose proof (R_size _ _ HR).
        split; [reflexivity|]. split; [apply PStep; exact Hp|]. split; [exact Hpl|]. split; [exact Ht|]. split; [reflexivity|].
        split; [cbn [explains]; split; [reflexivity|lia]|exact Hb].
    + destruct He as [-> Hsz]. unfold max_packet_size. replace (length bs <=? 18)%nat with true by (symmetry; apply Nat.leb_le; exact Hb).
      destruct (More (TBytes bs) Hb) as (x & t' & Hs & Hr). cbn [tx_step] in Hs. unfold tx_bytes, tx_deque_size, max_packet_size in Hs.
      replace (tx_size t =? 3)%nat with false in Hs by (symmetry; apply Nat.eqb_neq; lia).
      replace (length bs <=? 18)%nat with true in Hs by (symmetry; apply Nat.leb_le; exact Hb).
      destruct (bytes2timings bs (tx_cfg t)) as [ts|] eqn:Eb; [|discriminate]. cbn [rbind]. rewrite app_nil_r.
      exists (intervals os), (SBuilt bs ts), t, ops, os, t.
      split; [reflexivity|]. split; [apply PStep; exact Hp|]. split; [exact Hpl|]. split; [exact Ht|]. split; [reflexivity|].
      split; [cbn [explains]; auto|exact Hb].
    + destruct He as (-> & Hsz & Eb). rewrite app_nil_r. exists (intervals os), (SCopy bs ts 0), (put_slot [] t), ops, os, t.
      split; [reflexivity|]. split; [apply PStep; exact Hp|]. split; [exact Hpl|]. split; [exact Ht|]. split; [reflexivity|].
      split; [cbn [explains firstn]; auto|exact Hb].
    + destruct He as (-> & Hsz & Eb). destruct (k <? length ts)%nat eqn:Ek; cbn [rbind]; rewrite app_nil_r.
      * exists (intervals os), (SCopy bs ts (S k)), (put_slot (firstn (S k) ts) t), ops, os, t.
        split; [rewrite put_put; reflexivity|]. split; [apply PStep; exact Hp|]. split; [exact Hpl|]. split; [exact Ht|]. split; [reflexivity|].
        split; [cbn [explains]; auto|exact Hb].
      * destruct (More (TBytes bs) Hb) as (x & t' & Hs & Hr). cbn [tx_step] in Hs. unfold tx_bytes, tx_deque_size, max_packet_size in Hs.
        replace (tx_size t =? 3)%nat with false in Hs by (symmetry; apply Nat.eqb_neq; lia).
        replace (length bs <=? 18)%nat with true in Hs by (symmetry; apply Nat.leb_le; exact Hb).
        rewrite Eb in Hs. cbn [rbind] in Hs. injection Hs as <- <-.
        exists (intervals os), SIdle, (ring_push ts t), (ops ++ [TBytes bs]), (os ++ [(None, [])]), (ring_push ts t).
        apply Nat.ltb_ge in Ek. rewrite firstn_all2 by exact Ek.
        split; [reflexivity|]. split; [apply PEffect; exact Hp|]. split; [apply Forall_app; split; [exact Hpl|constructor; [exact Hb|constructor]]|].
        split; [exact Hr|]. split; [rewrite intervals_app; cbn; rewrite app_nil_r; reflexivity|]. split; [reflexivity|exact Logic.I].
  - (* interrupt *)
    destruct (More TTransmit Logic.I) as (x & t' & Hs & Hr). cbn [tx_step] in Hs.
    destruct (transmit t) as [[[d t1] ev]|] eqn:Et; [|discriminate]. cbn [rbind] in Hs. injection Hs as <- <-.
    destruct (transmit_keeps _ _ _ _ Et) as [Hcf Hsz].
    assert (Hs : exists s', transmit s = Ok (d, s', ev) /\ explains g s' t1).
    { destruct g as [|bs|bs|bs ts|bs ts k]; cbn [explains] in *.
      - subst s. eauto.
      - subst s. eauto.
      - destruct He as [-> H3]. exists t1. split; [exact Et|]. split; [reflexivity|lia].
      - destruct He as (-> & H3 & Eb). exists t1. split; [exact Et|]. rewrite Hcf. split; [reflexivity|]. split; [lia|exact Eb].
      - destruct He as (-> & H3 & Eb). exists (put_slot (firstn k ts) t1). rewrite (transmit_put _ _ _ HR H3), Et. split; [reflexivity|].
        rewrite Hcf. split; [reflexivity|]. split; [lia|exact Eb]. }
    destruct Hs as (s' & Hs & He'). cbn [xstep]. rewrite Hs. cbn [rbind].
    exists (intervals os ++ [(d, ev)]), g, s', (ops ++ [TTransmit]), (os ++ [(Some d, ev)]), t1.
    split; [reflexivity|]. split; [apply PTick; exact Hp|]. split; [apply Forall_app; split; [exact Hpl|constructor; [exact Logic.I|constructor]]|].
    split; [exact Hr|]. split; [rewrite intervals_app; reflexivity|]. split; [exact He'|exact Hb].
Qed.

Theorem linear_calls : forall c xs s0, config_ok c -> (forall bs, In (XCall bs) xs -> (length bs <= 18)%nat) ->
  tx_init c (tx_init_state 4) = Ok s0 ->
  exists outs g s ops os t, xrun xs (SIdle, s0) = Ok (outs, (g, s)) /\ placed xs (in_call g) ops /\
    tx_run (TInit c :: ops) (tx_init_state 4) = Ok ((None, []) :: os, t) /\ outs = intervals os /\ (g = SIdle -> s = t).
Proof.
  intros c xs s0 Hc Hl H0. destruct (linear c xs s0 Hc Hl H0) as (outs & g & s & ops & os & t & H1 & H2 & _ & H3 & H4 & H5 & _).
  exists outs, g, s, ops, os, t. repeat (split; [assumption|]). intros ->. exact H5.
Qed.

Lemma placed_calls : forall xs c ops, placed xs c ops ->
  (forall bs, In (TBytes bs) ops -> In (XCall bs) xs) /\ (forall bs, c = Some bs -> In (XCall bs) xs).
Proof.
  intros xs c ops H. induction H as [|xs c ops H [IH1 IH2]|xs ops bs H [IH1 IH2]|xs c ops bs H [IH1 IH2]|xs c ops H [IH1 IH2]|xs c ops H [IH1 IH2]].
  - split; [intros bs []|discriminate].
  - split; [|intros bs Hb; apply in_or_app; left; auto]. intros bs Hb. apply in_app_or in Hb. destruct Hb as [Hb|[Hb|[]]]; [|discriminate].
    apply in_or_app. left. auto.
  - split; [intros b Hb; apply in_or_app; left; auto|]. intros b [= ->]. apply in_or_app. right. left. reflexivity.
  - split; [intros b Hb; apply in_or_app; left; auto|]. intros b Hb. apply in_or_app. left. auto.
  - split; [intros b Hb; apply in_or_app; left; auto|]. intros b Hb. apply in_or_app. left. auto.
  - split; [|discriminate]. intros b Hb. apply in_or_app. left. apply in_app_or in Hb. destruct Hb as [Hb|[Hb|[]]]; [auto|].
    injection Hb as <-. auto.
Qed.

Section Interrupted.
  Context {I : Type} (E : Env I) (m : I -> Z -> Z) (able : access -> Prop) (time : I -> Z)
    (Hk : keeps_cvs able E m) (HE : short_cv1 E) (HC : clock E time).

  Theorem interrupted_obeyed : forall c xs s0 i, 0 <= time i -> config_ok c ->
    (forall bs, In (XCall bs) xs -> packet_ok bs /\ complete bs) -> tx_init c (tx_init_state 4) = Ok s0 ->
    exists outs g s1 ops h, xrun xs (SIdle, s0) = Ok (outs, (g, s1)) /\ placed xs (in_call g) ops /\
    flat_map call_of h = ops /\ ticks h = outs /\ history_ok c h /\
    forall dos, filter is_receive dos = map OReceive (map fst outs) -> ~ In ODisable dos ->
      executes_every 76 dos -> on_time dos ->
      exists s es done left, run E (OInit :: dos) (st0 i) = Ok (tt, s, es) /\
        finished c (None :: started h) (length outs) = done ++ left /\ (length left <= 1)%nat /\
        let x := obey_all (e_east_west E) done (new_view (m i)) in
        Forall (allowed able) (snd x) ->
        seen_in es = snd x /\ (forall a, m (Rx.app s) a = v_cvs (fst x) a) /\
        in_service s = v_service (fst x) /\ page s = v_page (fst x).
  Proof.
    intros c xs s0 i Hi Hc Hpk H0. assert (Hl : forall bs, In (XCall bs) xs -> (length bs <= 18)%nat) by (intros bs Hb; apply (Hpk bs Hb)).
    destruct (linear c xs s0 Hc Hl H0) as (outs & g & s1 & ops & os & t & H1 & H2 & H3 & H4 & H5 & _).
    destruct (station_obeyed E m able time Hk HE HC c ops i Hi Hc H3) as (h & ys & tx & Htx & Hcall & Hres & Hh & Hall).
    { intros bs Hb. apply Hpk. apply (proj1 (placed_calls _ _ _ H2)). exact Hb. }
    rewrite H4 in Htx. injection Htx as <- <-. exists outs, g, s1, ops, h. split; [exact H1|]. split; [exact H2|]. split; [exact Hcall|].
    assert (Ho : ticks h = outs) by (rewrite H5, <- Hres, intervals_ticks; reflexivity).
    split; [exact Ho|]. split; [exact Hh|]. intros dos. rewrite H5. intros Hd. rewrite <- H5, <- Ho. exact (Hall dos Hd).
  Qed.
End Interrupted.
