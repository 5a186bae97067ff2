(** The decoder connected to the transmitter *)
From Verif Require Import Prelude Address ZBits SpecCodec SpecTx TxProofs Tx RxState Rx CodecProofs RxLogic SpecRx
  RxBitProofs RxBitProofs2 RxBitProofs3 RxBitProofs4.

(** ** The bit registers alone *)

Definition mstep (f : fsm) (b : bool) : fsm * list (list Z) :=
  match machine_hb false f b with
  | (f', AAccept) => (reset_fsm (upd_f_packet_end true f'), if is_logon (f_packet f') then [] else [f_packet f'])
  | (f', _) => (f', [])
  end.
Fixpoint mrun (f : fsm) (hs : list bool) : fsm * list (list Z) :=
  match hs with
  | [] => (f, [])
  | b :: r => let '(f1, p1) := mstep f b in let '(f2, p2) := mrun f1 r in (f2, p1 ++ p2)
  end.

Lemma mrun_app : forall a f b,
  mrun f (a ++ b) = let '(f1, p1) := mrun f a in let '(f2, p2) := mrun f1 b in (f2, p1 ++ p2).
Proof.
  induction a as [|x a IH]; intros f b; cbn [List.app mrun].
  - destruct (mrun f b). reflexivity.
  - destruct (mstep f x) as [f1 p1]. rewrite IH. destruct (mrun f1 a) as [f2 p2].
    destruct (mrun f2 b) as [f3 p3]. rewrite app_assoc. reflexivity.
Qed.

Lemma silent_mrun : forall f hs f', silent false f hs f' -> mrun f hs = (f', []).
Proof.
  intros f hs f' H. induction H as [f|f b f1 hs f2 Hm H IH]; [reflexivity|].
  cbn [mrun]. unfold mstep. rewrite Hm, IH. reflexivity.
Qed.

(** Waiting with no one half bit seen *)
Definition between (f : fsm) : Prop :=
  f_state f = Preamble /\ f_bit_count f = 0%nat /\ f_byte f = 0 /\ f_checksum f = 0.

Lemma doubled_ones : forall n, doubled (repeat true n) = repeat true (2 * n).
Proof.
  induction n; [reflexivity|]. change (doubled (repeat true (S n))) with ([true; true] ++ doubled (repeat true n)).
  rewrite IHn. replace (2 * S n)%nat with (S (S (2 * n))) by lia. reflexivity.
Qed.

Lemma track_bits_split : forall n bs, bs <> [] ->
  doubled (track_bits n bs) = repeat true (2 * n) ++ [false; false] ++ doubled (frame_bits bs).
Proof.
  intros n bs H. unfold track_bits. rewrite doubled_app, doubled_ones.
  destruct bs as [|b bs]; [congruence|]. reflexivity.
Qed.

(** A packet, all but its last half bit *)
Lemma mrun_packet : forall n bs f, packet_ok bs -> (10 <= n)%nat -> between f ->
  exists init f1 f2, doubled (track_bits n bs) = init ++ [true] /\
    mrun f init = (f1, []) /\ mstep f1 true = (f2, [bs]) /\ between f2.
Proof.
  intros n bs f (Hby & Hlen & Hx & Hlg) Hn (H1 & H2 & H3 & H4).
  destruct bs as [|b bs]; [cbn [length] in Hlen; lia|].
  inversion Hby as [|? ? Hb1 Hb2]; subst.
  rewrite track_bits_split by discriminate. unfold frame_bits. cbn [flat_map List.app tl].
  rewrite !doubled_app. change (doubled [true]) with ([true] ++ [true]).
  destruct f as [ph bc by_ ck hb pk pe]. cbn in H1, H2, H3, H4. subst ph bc by_ ck.
  exists (repeat true (2 * n) ++ [false; false] ++ doubled (msb_first b)
          ++ doubled (flat_map (fun b => false :: msb_first b) bs) ++ [true]).
  exists (Mk_fsm Endbit 0 0 0 true (b :: bs) false), (Mk_fsm Preamble 0 0 0 false (b :: bs) true).
  split; [|split; [|split]].
  - rewrite <- !app_assoc. cbn [List.app]. rewrite <- ?app_assoc. reflexivity.
  - rewrite mrun_app.
    rewrite (silent_mrun _ _ _ (silent_ones (2 * n) 0 (Mk_fsm Preamble 0 0 0 hb pk pe) eq_refl eq_refl ltac:(lia))).
    unfold upd_f_bit_count, upd_f_packet_end. cbn [f_state f_byte f_checksum f_is_halfbit f_packet f_packet_end f_bit_count].
    rewrite mrun_app. 
    assert (Hst : mrun (Mk_fsm Preamble (0 + 2 * n) 0 0 hb pk false) [false; false] = (Mk_fsm Data 0 0 0 false [] false, [])).
    { cbn [mrun]. unfold mstep, machine_hb, machine_bit. cbn -[Nat.ltb Nat.mul].
      replace (2 * n <? 20)%nat with false by (symmetry; apply Nat.ltb_ge; lia). reflexivity. }
    rewrite Hst. rewrite mrun_app.
    rewrite (silent_mrun _ _ _ (silent_byte b 0 [] Hb1 ltac:(unfold byte; lia) ltac:(cbn [length]; lia))).
    rewrite mrun_app.
    rewrite (silent_mrun _ _ _ (silent_bytes bs (Z.lxor 0 b) ([] ++ [b]) Hb2
      ltac:(rewrite Z.lxor_0_l; exact Hb1) ltac:(cbn [length List.app] in *; lia))).
    rewrite Z.lxor_0_l. change (Z.lxor b (xor_all bs)) with (xor_all (b :: bs)). rewrite Hx.
    change (([] ++ [b]) ++ bs) with (b :: bs). reflexivity.
  - unfold mstep, machine_hb, machine_bit. cbn -[Nat.leb length is_logon].
    replace (3 <=? length (b :: bs))%nat with true by (symmetry; apply Nat.leb_le; lia).
    cbn -[Nat.leb length is_logon]. rewrite Hlg. reflexivity.
  - repeat split.
Qed.

Lemma mrun_zeros : forall k f, between f -> exists f', mrun f (repeat false k) = (f', []) /\ between f'.
Proof.
  induction k as [|k IH]; intros f Hf; [exists f; auto|].
  cbn [repeat mrun]. destruct Hf as (H1 & H2 & H3 & H4).
  destruct f as [ph bc by_ ck hb pk pe]. cbn in H1, H2, H3, H4. subst.
  change (mstep (Mk_fsm Preamble 0 0 0 hb pk pe) false) with (reset_fsm (Mk_fsm Preamble 0 0 0 hb pk false), @nil (list Z)).
  cbv beta iota.
  destruct (IH (reset_fsm (Mk_fsm Preamble 0 0 0 hb pk false))) as (f' & -> & Hf'); [repeat split|].
  exists f'. auto.
Qed.

(** Half bits of durations *)
Definition halves_of (ts : list Z) : list bool :=
  flat_map (fun t => match half_bit t with Some b => [b] | None => [] end) ts.

Lemma halves_of_app : forall a b, halves_of (a ++ b) = halves_of a ++ halves_of b.
Proof. intros a b. unfold halves_of. apply flat_map_app. Qed.

Lemma halves_of_firstn : forall ts k, exists j, halves_of (firstn k ts) = firstn j (halves_of ts).
Proof.
  intros ts k. exists (length (halves_of (firstn k ts))).
  rewrite <- (firstn_skipn k ts) at 3. rewrite halves_of_app.
  rewrite firstn_app, Nat.sub_diag, firstn_all. cbn. rewrite app_nil_r. reflexivity.
Qed.

Lemma half_bits_halves : forall d1 d0 bits, half_bit d1 = Some true -> half_bit d0 = Some false ->
  map half_bit (half_bits d1 d0 bits) = map Some (doubled bits).
Proof.
  intros d1 d0 bits H1 H0. unfold half_bits, doubled. induction bits as [|b bits IH]; [reflexivity|].
  cbn [flat_map map List.app]. rewrite IH. destruct b; rewrite ?H1, ?H0; reflexivity.
Qed.

Lemma halves_of_map : forall ts hs, map half_bit ts = map Some hs -> halves_of ts = hs.
Proof.
  induction ts as [|t ts IH]; intros [|h hs] H; try discriminate; [reflexivity|].
  cbn [map] in H. assert (H1 : half_bit t = Some h) by congruence.
  assert (H2 : map half_bit ts = map Some hs) by congruence.
  unfold halves_of. cbn [flat_map]. fold (halves_of ts). rewrite H1, (IH _ H2). reflexivity.
Qed.

Definition halves (c : tx_config) (p : option (list Z)) : list Z :=
  match p with None => idle_halves | Some bs => packet_halves c bs end.
Definition bytes (p : option (list Z)) : list Z := match p with None => [0xFF; 0x00; 0xFF] | Some bs => bs end.

Lemma half_one : forall t, 52 <= t <= 64 -> half_bit t = Some true.
Proof.
  intros t H. unfold half_bit.
  replace (t <? 52) with false by (symmetry; apply Z.ltb_ge; lia).
  replace (10000 <? t) with false by (symmetry; apply Z.ltb_ge; lia).
  replace (t <=? 64) with true by (symmetry; apply Z.leb_le; lia). reflexivity.
Qed.
Lemma half_zero : forall t, 90 <= t <= 10000 -> half_bit t = Some false.
Proof.
  intros t H. unfold half_bit.
  replace (t <? 52) with false by (symmetry; apply Z.ltb_ge; lia).
  replace (10000 <? t) with false by (symmetry; apply Z.ltb_ge; lia).
  replace (t <=? 64) with false by (symmetry; apply Z.leb_gt; lia).
  replace (t <? 90) with false by (symmetry; apply Z.ltb_ge; lia). reflexivity.
Qed.

Definition bits_of (c : tx_config) (p : option (list Z)) : list bool :=
  track_bits match p with None => 17 | Some _ => Z.to_nat (num_preamble c) end (bytes p).

Lemma halves_heard : forall c p, config_ok c -> map half_bit (halves c p) = map Some (doubled (bits_of c p)).
Proof.
  intros c p (H1 & H2 & H3). destruct p as [bs|]; unfold halves, bits_of, packet_halves, idle_halves;
    apply half_bits_halves; first [apply half_one; lia | apply half_zero; lia].
Qed.

Lemma idle_ok : packet_ok [0xFF; 0x00; 0xFF].
Proof. repeat split; try reflexivity; cbn; try lia. repeat constructor; unfold byte; lia. Qed.

Lemma firstn_map_cons : forall (A : Type) n (a b : list A), (n <= length a)%nat -> firstn n (a ++ b) = firstn n a.
Proof. intros A n a b H. rewrite firstn_app. replace (n - length a)%nat with 0%nat by lia. rewrite firstn_O, app_nil_r. reflexivity. Qed.

Lemma alternate_fst : forall c ts f, map fst (alternate c f ts) = ts.
Proof. intros c ts. induction ts as [|t ts IH]; intros f; [reflexivity|]. cbn [alternate map fst]. rewrite IH. reflexivity. Qed.

(** Any beginning of the track *)
Lemma mrun_track : forall c ps n f, config_ok c -> Forall (fun p => packet_ok (bytes p)) ps -> between f ->
  snd (mrun f (halves_of (firstn n (map fst (flat_map (on_track c) ps))))) = finished c ps n.
Proof.
  intros c ps. induction ps as [|p ps IH]; intros n f Hc Hps Hf.
  - cbn [flat_map map]. rewrite firstn_nil. reflexivity.
  - inversion Hps as [|? ? Hp Hps']; subst. cbn [flat_map finished].
    rewrite map_app. unfold on_track at 1. rewrite map_app, alternate_fst. fold (halves c p).
    destruct (mrun_packet (match p with None => 17 | Some _ => Z.to_nat (num_preamble c) end) (bytes p) f Hp) as
      (init & f1 & f2 & Hd & Hi & Hm & Hb2); [destruct Hc; destruct p; lia|exact Hf|].
    fold (bits_of c p) in Hd.
    pose proof (halves_heard c p Hc) as Hh.
    assert (Hlen : length (halves c p) = S (length init)).
    { apply (f_equal (@length _)) in Hh. rewrite !map_length, Hd, app_length in Hh. cbn [length] in Hh. lia. }
    destruct (n <? length (halves c p))%nat eqn:En.
    + apply Nat.ltb_lt in En. rewrite <- app_assoc, firstn_map_cons by lia.
      assert (Hpre : halves_of (firstn n (halves c p)) = firstn n (init ++ [true])).
      { apply halves_of_map. rewrite <- firstn_map, Hh, Hd, firstn_map. reflexivity. }
      rewrite Hpre, firstn_map_cons by lia.
      rewrite <- (firstn_skipn n init) in Hi. rewrite mrun_app in Hi.
      destruct (mrun f (firstn n init)) as [g1 q1]. destruct (mrun g1 (skipn n init)) as [g2 q2].
      assert (Hq : q1 ++ q2 = []) by congruence. apply app_eq_nil in Hq. cbn [snd]. apply Hq.
    + apply Nat.ltb_ge in En. set (m := (n - length (halves c p))%nat).
      assert (Hfl : mrun f (doubled (bits_of c p)) = (f2, [bytes p])).
      { rewrite Hd, mrun_app, Hi. cbn [mrun]. rewrite Hm. reflexivity. }
      rewrite <- app_assoc. rewrite firstn_app. fold m. rewrite (firstn_all2 (halves c p)) by lia.
      rewrite halves_of_app, mrun_app, (halves_of_map _ _ Hh), Hfl.
      assert (Hrest : snd (mrun f2 (halves_of (firstn m (map fst (if cfg_bidi c then cutout c else []) ++ map fst (flat_map (on_track c) ps)))))
                = finished c ps (m - (if cfg_bidi c then 5 else 0))).
      { destruct (cfg_bidi c).
        - rewrite firstn_app, halves_of_app, mrun_app.
          change (length (map fst (cutout c))) with 5%nat.
          assert (Hcut : exists k, halves_of (firstn m (map fst (cutout c))) = repeat false k).
          { cbn [cutout map fst]. destruct m as [|[|[|[|[|[|]]]]]];
              cbn [firstn]; [exists 0%nat|exists 0%nat|exists 0%nat|exists 1%nat|exists 2%nat|exists 2%nat|exists 2%nat]; reflexivity. }
          destruct Hcut as (k & ->). destruct (mrun_zeros k f2 Hb2) as (f3 & -> & Hb3).
          specialize (IH (m - 5)%nat f3 Hc Hps' Hb3).
          destruct (mrun f3 _) as [f4 p4]. exact IH.
        - cbn [map List.app]. rewrite Nat.sub_0_r. apply IH; auto. }
      destruct (mrun f2 _) as [f4 p4]. cbn [snd] in *. subst p4. destruct p; reflexivity.
Qed.

(** ** Decoder with other calls in between *)

Section Bits5.
  Context {I : Type} (E : Env I).
  Implicit Types s : st I.

  Lemma listen_all_cons : forall o os l, listen_all (o :: os) l = listen_all os (listen o l).
  Proof. reflexivity. Qed.

  Lemma heard_machine : forall os l s s' es,
    Rl l s -> run E os s = Ok (tt, s', es) -> ~ In ODisable os -> never_full os l ->
    heard os l = snd (mrun (r_fsm (rxs s)) (half_bits_in os)).
  Proof.
    induction os as [|o os IH]; intros l s s' es HR H Hnd Hnf; [reflexivity|].
    cbn [run] in H. apply bind_inv in H. destruct H as (b & s1 & e1 & e2 & H1 & H2 & ->).
    pose proof (step_refines E o l s b s1 e1 HR H1) as HR1.
    assert (Hnd1 : ~ In ODisable os) by (intro; apply Hnd; right; assumption).
    assert (Hnf1 : never_full os (listen o l)).
    { intros a c Ha. specialize (Hnf (o :: a) c). rewrite listen_all_cons in Hnf. apply Hnf. rewrite Ha. reflexivity. }
    specialize (IH _ _ _ _ HR1 H2 Hnd1 Hnf1). cbn [heard].
    change (half_bits_in (o :: os)) with (half_bits_in ([o] ++ os)). rewrite half_bits_in_app, mrun_app.
    assert (Ho : match completed o l with Some bs => if is_logon bs then [] else [bs] | None => [] end
                 = snd (mrun (r_fsm (rxs s)) (half_bits_in [o])) /\
                 (r_fsm (rxs s1) = fst (mrun (r_fsm (rxs s)) (half_bits_in [o])) \/
                  r_fsm (rxs s1) = upd_f_packet_end false (fst (mrun (r_fsm (rxs s)) (half_bits_in [o]))))).
    { assert (Hcore : r_fsm (rxs s1) = r_fsm (rxs s) -> half_bits_in [o] = [] -> completed o l = None ->
                match completed o l with Some bs => if is_logon bs then [] else [bs] | None => [] end
                 = snd (mrun (r_fsm (rxs s)) (half_bits_in [o])) /\
                 (r_fsm (rxs s1) = fst (mrun (r_fsm (rxs s)) (half_bits_in [o])) \/
                  r_fsm (rxs s1) = upd_f_packet_end false (fst (mrun (r_fsm (rxs s)) (half_bits_in [o]))))).
      { intros Ha Hb Hc. rewrite Hb, Hc. split; [reflexivity|left; exact Ha]. }
      clear IH Hnf1 Hnd1 HR1 H2. destruct o as [| | |t| |ds| | |i v]; cbn [step] in H1.
      - apply bind_inv in H1. destruct H1 as (u & s2 & e3 & e4 & Ha & Hb & ->). inversion Hb; subst.
        apply core_init in Ha. injection Ha as Ha _ _. apply Hcore; auto.
      - apply bind_inv in H1. destruct H1 as (u & s2 & e3 & e4 & Ha & Hb & ->). inversion Hb; subst.
        unfold enable in Ha. apply bind_inv in Ha. destruct Ha as (r & s3 & e5 & e6 & Hg & Ha & ->).
        inversion Hg; subst. apply Hcore; auto. destruct (enabled_flag _); inversion Ha; subst; reflexivity.
      - exfalso. apply Hnd. left. reflexivity.
      - apply bind_inv in H1. destruct H1 as ([] & s2 & e3 & e4 & Ha & Hb & ->). inversion Hb; subst. clear Hb.
        destruct HR as (HI & Hq & Hf & Ho & Hl).
        specialize (Hnf [] (OReceive t :: os) eq_refl). cbn [listen_all fold_left] in Hnf.
        cbn [completed half_bits_in flat_map]. destruct (half_bit t) as [b0|] eqn:Et.
        2: { rewrite (receive_invalid E t s Et) in Ha. inversion Ha; subst. cbn [mrun snd fst List.app].
             split; [reflexivity|]. right. reflexivity. }
        rewrite receive_machine in Ha.
        assert (Hfull : full s = false) by (unfold full; rewrite Hq; apply Nat.eqb_neq; lia).
        rewrite Hfull in Ha.
        pose proof (machine_sim (l_heard l) (r_fsm (rxs s)) false b0 t HI Et) as Hs. cbv zeta in Hs.
        rewrite (machine_some _ _ _ _ Et) in *.
        cbv zeta. replace (length (l_queue l) =? 31)%nat with false by (symmetry; apply Nat.eqb_neq; lia).
        rewrite andb_false_r in *. cbn [List.app mrun]. unfold mstep.
        destruct (machine_hb false (r_fsm (rxs s)) b0) as [f a] eqn:Em. cbn [fst snd] in Hs.
        destruct (reading (l_heard l ++ [b0])) as [| |bs] eqn:Er.
        + destruct Hs as [[-> _]|[[-> | ->] _]]; [discriminate| |];
            inversion Ha; subst; cbn [fst snd List.app]; split; auto; left; reflexivity.
        + destruct Hs as (-> & _). inversion Ha; subst. cbn [fst snd List.app]. split; auto.
        + destruct Hs as (Hby & Hlen & Hs). destruct (valid_packet bs) eqn:Ev.
          * destruct Hs as [-> Hpk]. cbn [fst snd]. rewrite Hpk, app_nil_r. split; [reflexivity|]. left.
            unfold valid_packet in Ev. apply andb_prop in Ev. destruct Ev as [_ Ev]. apply Nat.leb_le in Ev.
            destruct (is_logon bs) eqn:Elg.
            -- assert (Hc := accept_logon E (with_fsm f s) s1 e3).
               cbv zeta in Hc. unfold with_fsm in Hc. cbn [rxs r_fsm set_r_fsm r_deque r_cv] in Hc.
               rewrite Hpk in Hc. specialize (Hc Hby Ev Elg Ha). injection Hc as H1 H2 H3. exact H1.
            -- rewrite accept_ordinary in Ha; unfold with_fsm; cbn [rxs r_fsm set_r_fsm r_deque r_cv];
                 rewrite ?Hpk; auto; [|rewrite Hq; lia].
               inversion Ha; subst. reflexivity.
          * destruct Hs as (-> & _). inversion Ha; subst. cbn [fst snd List.app]. split; auto.
      - apply execute_effect in H1. destruct H1 as [(_ & _ & -> & _)|(_ & _ & Hc)]; apply Hcore; auto.
        injection Hc as Hc _ _. exact Hc.
      - apply bind_inv in H1. destruct H1 as (u & s2 & e3 & e4 & Ha & Hb & ->). inversion Hb; subst.
        apply core_datagram in Ha. injection Ha as Ha _ _. apply Hcore; auto.
      - apply bind_inv in H1. destruct H1 as (u & s2 & e3 & e4 & Ha & Hb & ->). inversion Hb; subst.
        apply core_biDi1 in Ha. injection Ha as Ha _ _. apply Hcore; auto.
      - apply bind_inv in H1. destruct H1 as (u & s2 & e3 & e4 & Ha & Hb & ->). inversion Hb; subst.
        apply core_biDi2 in Ha. injection Ha as Ha _ _. apply Hcore; auto.
      - destruct (nth_error (pending s) i) as [c|]; [|inversion H1; subst; apply Hcore; auto].
        apply bind_inv in H1. destruct H1 as (u & s2 & e3 & e4 & Ha & Hb & ->). inversion Hb; subst.
        apply core_run_cb in Ha. injection Ha as Ha _ _. apply Hcore; auto. }
    destruct Ho as [Ho Hf]. rewrite Ho.
    destruct (mrun (r_fsm (rxs s)) (half_bits_in [o])) as [f1 p1]. cbn [fst snd] in *.
    assert (Hpe : snd (mrun (r_fsm (rxs s1)) (half_bits_in os)) = snd (mrun f1 (half_bits_in os))).
    { destruct Hf as [-> | ->]; [reflexivity|]. destruct (half_bits_in os); [reflexivity|].
      cbn [mrun]. destruct f1 as [[] ? ? ? ? ? ?]; reflexivity. }
    rewrite IH, Hpe. destruct (mrun f1 (half_bits_in os)). reflexivity.
  Qed.

  Lemma half_bits_in_receives : forall os ts, filter is_receive os = map OReceive ts -> half_bits_in os = halves_of ts.
  Proof.
    induction os as [|o os IH]; intros ts H.
    - destruct ts; [reflexivity|discriminate].
    - cbn [filter] in H. destruct o as [| | |t| |ds| | |i v]; cbn [is_receive] in H; try (apply IH; exact H).
      destruct ts as [|x ts]; [discriminate|]. cbn [map] in H. inversion H; subst.
      unfold half_bits_in, halves_of. cbn [flat_map]. f_equal. apply IH. assumption.
  Qed.

  Theorem end_to_end : forall c ops xs tx i dos s es,
    config_ok c -> Forall plain_op ops -> (forall bs, In (TBytes bs) ops -> packet_ok bs) ->
    tx_run (TInit c :: ops) (tx_init_state 4) = Ok ((None, []) :: xs, tx) ->
    filter is_receive dos = map OReceive (map fst (intervals xs)) -> ~ In ODisable dos ->
    never_full dos listener0 -> run E dos (st0 i) = Ok (tt, s, es) ->
    exists h, flat_map call_of h = ops /\ flat_map result_of h = xs /\ history_ok c h /\
      heard dos listener0 = finished c (None :: started h) (length (ticks h)) /\
      heard dos listener0 = taken dos listener0 ++ r_deque (rxs s).
  Proof.
    intros c ops xs tx i dos s es Hc Hops Hpk Htx Hdos Hnd Hnf Hrun.
    destruct (tx_history c ops Hc Hops) as (xs' & s' & h & Htx' & Hcall & Hres & Hh).
    assert (Hxs : xs' = xs) by congruence. rewrite Hxs in Hres.
    exists h. split; [exact Hcall|]. split; [exact Hres|]. split; [exact Hh|].
    split; [|apply (fifo E i dos s es Hrun)].
    rewrite (heard_machine dos _ _ _ _ (Rl0 i) Hrun Hnd Hnf).
    rewrite (half_bits_in_receives _ _ Hdos), <- Hres, intervals_ticks.
    destruct (ticks_prefix c h Hh) as (rest & Hrest). unfold track in Hrest.
    assert (Hfn : map fst (ticks h) = firstn (length (ticks h)) (map fst (flat_map (on_track c) (None :: started h)))).
    { rewrite <- Hrest, map_app, firstn_app, map_length, Nat.sub_diag, firstn_O, app_nil_r.
      rewrite firstn_all2; [reflexivity|rewrite map_length; lia]. }
    rewrite Hfn. apply mrun_track; [exact Hc| |repeat split].
    constructor; [exact idle_ok|]. apply Forall_forall. intros p Hp.
    destruct p as [bs|]; [|exact idle_ok]. cbn [bytes]. apply Hpk.
    (* a started packet was queued *)
    rewrite <- Hcall. clear - Hp Hh.
    assert (Hq : In bs (queued h)).
    { unfold started in Hp. apply in_flat_map in Hp. destruct Hp as (e & He & Hp).
      destruct e as [| |q|]; try contradiction. destruct Hp as [-> |[]].
      apply in_split in He. destruct He as (h1 & h2 & ->).
      destruct (Hh h1 (Started (Some bs)) h2 eq_refl) as (ws & Hw & Hhd & _).
      rewrite queued_app. apply in_or_app. left. unfold waiting in Hw. rewrite Hw. apply in_or_app. right.
      destruct ws; [discriminate|]. inversion Hhd. left. reflexivity. }
    unfold queued in Hq. apply in_flat_map in Hq. destruct Hq as (e & He & Hq).
    destruct e; try contradiction. destruct Hq as [-> |[]].
    apply in_flat_map. exists (Queued bs). split; [exact He|left; reflexivity].
  Qed.
End Bits5.
