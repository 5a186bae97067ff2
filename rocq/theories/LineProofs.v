(** All packets of a station arrive, logon packets among them *)
From Verif Require Import Prelude Address ZBits SpecCodec SpecTx TxProofs Tx RxState Rx CodecProofs RxLogic SpecRx
  RxBitProofs RxBitProofs2 RxBitProofs3 RxBitProofs4 RxBitProofs5 SpecConf SpecExec SpecCv SpecLogon SpecLayout LayoutProofs5 SpecNode SpecLine.

Definition cstep (f : fsm) (b : bool) : fsm * list (list Z) :=
  match machine_hb false f b with
  | (f', AAccept) => (reset_fsm (upd_f_packet_end true f'), [f_packet f'])
  | (f', _) => (f', [])
  end.
Fixpoint crun (f : fsm) (hs : list bool) : fsm * list (list Z) :=
  match hs with
  | [] => (f, [])
  | b :: r => let '(f1, p1) := cstep f b in let '(f2, p2) := crun f1 r in (f2, p1 ++ p2)
  end.

Lemma crun_app : forall a f b,
  crun f (a ++ b) = let '(f1, p1) := crun f a in let '(f2, p2) := crun f1 b in (f2, p1 ++ p2).
Proof.
  induction a as [|x a IH]; intros f b; cbn [List.app crun].
  - destruct (crun f b). reflexivity.
  - destruct (cstep f x) as [f1 p1]. rewrite IH. destruct (crun f1 a) as [f2 p2].
    destruct (crun f2 b) as [f3 p3]. rewrite app_assoc. reflexivity.
Qed.

Lemma silent_crun : forall f hs f', silent false f hs f' -> crun f hs = (f', []).
Proof.
  intros f hs f' H. induction H as [f|f b f1 hs f2 Hm H IH]; [reflexivity|].
  cbn [crun]. unfold cstep. rewrite Hm, IH. reflexivity.
Qed.

(** A packet, all but its last half bit *)
Lemma crun_packet : forall n bs f, sendable bs -> (10 <= n)%nat -> between f ->
  exists init f1 f2, doubled (track_bits n bs) = init ++ [true] /\
    crun f init = (f1, []) /\ cstep f1 true = (f2, [bs]) /\ between f2.
Proof.
  intros n bs f (Hby & Hlen & Hx) Hn (H1 & H2 & H3 & H4).
  destruct bs as [|b bs]; [cbn [length] in Hlen; lia|].
  inversion Hby as [|? ? Hb1 Hb2]; subst.
  rewrite track_bits_split by discriminate. unfold frame_bits. cbn [flat_map List.app tl].
  rewrite !doubled_app. change (doubled [true]) with ([true] ++ [true]).
  destruct f as [ph bc by_ ck hb pk pe]. cbn in H1, H2, H3, H4. subst ph bc by_ ck.
  exists (repeat true (2 * n) ++ [false; false] ++ doubled (msb_first b)
          ++ doubled (flat_map (fun b => false :: msb_first b) bs) ++ [true]).
  exists (Mk_fsm Endbit 0 0 0 true (b :: bs) false), (Mk_fsm Preamble 0 0 0 false (b :: bs) true).
  split; [|split; [|split]].
  - rewrite <- !app_assoc. cbn [List.app]. rewrite <- ?app_assoc. reflexivity.
  - rewrite crun_app.
    rewrite (silent_crun _ _ _ (silent_ones (2 * n) 0 (Mk_fsm Preamble 0 0 0 hb pk pe) eq_refl eq_refl ltac:(lia))).
    unfold upd_f_bit_count, upd_f_packet_end. cbn [f_state f_byte f_checksum f_is_halfbit f_packet f_packet_end f_bit_count].
    rewrite crun_app. 
    assert (Hst : crun (Mk_fsm Preamble (0 + 2 * n) 0 0 hb pk false) [false; false] = (Mk_fsm Data 0 0 0 false [] false, [])).
    { cbn [crun]. unfold cstep, machine_hb, machine_bit. cbn -[Nat.ltb Nat.mul].
      replace (2 * n <? 20)%nat with false by (symmetry; apply Nat.ltb_ge; lia). reflexivity. }
    rewrite Hst. rewrite crun_app.
    rewrite (silent_crun _ _ _ (silent_byte b 0 [] Hb1 ltac:(unfold byte; lia) ltac:(cbn [length]; lia))).
    rewrite crun_app.
    rewrite (silent_crun _ _ _ (silent_bytes bs (Z.lxor 0 b) ([] ++ [b]) Hb2
      ltac:(rewrite Z.lxor_0_l; exact Hb1) ltac:(cbn [length List.app] in *; lia))).
    rewrite Z.lxor_0_l. change (Z.lxor b (xor_all bs)) with (xor_all (b :: bs)). rewrite Hx.
    change (([] ++ [b]) ++ bs) with (b :: bs). reflexivity.
  - unfold cstep, machine_hb, machine_bit. cbn -[Nat.leb length is_logon].
    replace (3 <=? length (b :: bs))%nat with true by (symmetry; apply Nat.leb_le; lia).
    cbn -[Nat.leb length is_logon]. reflexivity.
  - repeat split.
Qed.

Lemma crun_zeros : forall k f, between f -> exists f', crun f (repeat false k) = (f', []) /\ between f'.
Proof.
  induction k as [|k IH]; intros f Hf; [exists f; auto|].
  cbn [repeat crun]. destruct Hf as (H1 & H2 & H3 & H4).
  destruct f as [ph bc by_ ck hb pk pe]. cbn in H1, H2, H3, H4. subst.
  change (cstep (Mk_fsm Preamble 0 0 0 hb pk pe) false) with (reset_fsm (Mk_fsm Preamble 0 0 0 hb pk false), @nil (list Z)).
  cbv beta iota.
  destruct (IH (reset_fsm (Mk_fsm Preamble 0 0 0 hb pk false))) as (f' & -> & Hf'); [repeat split|].
  exists f'. auto.
Qed.

Lemma crun_track : forall c ps n f, config_ok c -> Forall (fun p => sendable (bytes p)) ps -> between f ->
  snd (crun f (halves_of (firstn n (map fst (flat_map (on_track c) ps))))) = finished c ps n.
Proof.
  intros c ps. induction ps as [|p ps IH]; intros n f Hc Hps Hf.
  - cbn [flat_map map]. rewrite firstn_nil. reflexivity.
  - inversion Hps as [|? ? Hp Hps']; subst. cbn [flat_map finished].
    rewrite map_app. unfold on_track at 1. rewrite map_app, alternate_fst. fold (halves c p).
    destruct (crun_packet (match p with None => 17 | Some _ => Z.to_nat (num_preamble c) end) (bytes p) f Hp) as
      (init & f1 & f2 & Hd & Hi & Hm & Hb2); [destruct Hc; destruct p; lia|exact Hf|].
    fold (bits_of c p) in Hd.
    pose proof (halves_heard c p Hc) as Hh.
    assert (Hlen : length (halves c p) = S (length init)).
    { apply (f_equal (@length _)) in Hh. rewrite !map_length, Hd, app_length in Hh. cbn [length] in Hh. lia. }
    destruct (n <? length (halves c p))%nat eqn:En.
    + apply Nat.ltb_lt in En. rewrite <- app_assoc, firstn_map_cons by lia.
      assert (Hpre : halves_of (firstn n (halves c p)) = firstn n (init ++ [true])).
      { apply halves_of_map. rewrite <- firstn_map, Hh, Hd, firstn_map. reflexivity. }
      rewrite Hpre, firstn_map_cons by lia.
      rewrite <- (firstn_skipn n init) in Hi. rewrite crun_app in Hi.
      destruct (crun f (firstn n init)) as [g1 q1]. destruct (crun g1 (skipn n init)) as [g2 q2].
      assert (Hq : q1 ++ q2 = []) by congruence. apply app_eq_nil in Hq. cbn [snd]. apply Hq.
    + apply Nat.ltb_ge in En. set (m := (n - length (halves c p))%nat).
      assert (Hfl : crun f (doubled (bits_of c p)) = (f2, [bytes p])).
      { rewrite Hd, crun_app, Hi. cbn [crun]. rewrite Hm. reflexivity. }
      rewrite <- app_assoc. rewrite firstn_app. fold m. rewrite (firstn_all2 (halves c p)) by lia.
      rewrite halves_of_app, crun_app, (halves_of_map _ _ Hh), Hfl.
      assert (Hrest : snd (crun f2 (halves_of (firstn m (map fst (if cfg_bidi c then cutout c else []) ++ map fst (flat_map (on_track c) ps)))))
                = finished c ps (m - (if cfg_bidi c then 5 else 0))).
      { destruct (cfg_bidi c).
        - rewrite firstn_app, halves_of_app, crun_app.
          change (length (map fst (cutout c))) with 5%nat.
          assert (Hcut : exists k, halves_of (firstn m (map fst (cutout c))) = repeat false k).
          { cbn [cutout map fst]. destruct m as [|[|[|[|[|[|]]]]]];
              cbn [firstn]; [exists 0%nat|exists 0%nat|exists 0%nat|exists 1%nat|exists 2%nat|exists 2%nat|exists 2%nat]; reflexivity. }
          destruct Hcut as (k & ->). destruct (crun_zeros k f2 Hb2) as (f3 & -> & Hb3).
          specialize (IH (m - 5)%nat f3 Hc Hps' Hb3).
          destruct (crun f3 _) as [f4 p4]. exact IH.
        - cbn [map List.app]. rewrite Nat.sub_0_r. apply IH; auto. }
      destruct (crun f2 _) as [f4 p4]. cbn [snd] in *. subst p4. destruct p; reflexivity.
Qed.

Section Arrived.
  Context {I : Type} (E : Env I).
  Implicit Types s : st I.

  Lemma arrived_machine : forall os l s s' es,
    Rl l s -> run E os s = Ok (tt, s', es) -> ~ In ODisable os -> never_full os l ->
    arrived os l = snd (crun (r_fsm (rxs s)) (half_bits_in os)).
  Proof.
    induction os as [|o os IH]; intros l s s' es HR H Hnd Hnf; [reflexivity|].
    cbn [run] in H. apply bind_inv in H. destruct H as (b & s1 & e1 & e2 & H1 & H2 & ->).
    pose proof (step_refines E o l s b s1 e1 HR H1) as HR1.
    assert (Hnd1 : ~ In ODisable os) by (intro; apply Hnd; right; assumption).
    assert (Hnf1 : never_full os (listen o l)).
    { intros a c Ha. specialize (Hnf (o :: a) c). rewrite listen_all_cons in Hnf. apply Hnf. rewrite Ha. reflexivity. }
    specialize (IH _ _ _ _ HR1 H2 Hnd1 Hnf1). cbn [arrived].
    change (half_bits_in (o :: os)) with (half_bits_in ([o] ++ os)). rewrite half_bits_in_app, crun_app.
    assert (Ho : match completed o l with Some bs => [bs] | None => [] end
                 = snd (crun (r_fsm (rxs s)) (half_bits_in [o])) /\
                 (r_fsm (rxs s1) = fst (crun (r_fsm (rxs s)) (half_bits_in [o])) \/
                  r_fsm (rxs s1) = upd_f_packet_end false (fst (crun (r_fsm (rxs s)) (half_bits_in [o]))))).
    { assert (Hcore : r_fsm (rxs s1) = r_fsm (rxs s) -> half_bits_in [o] = [] -> completed o l = None ->
                match completed o l with Some bs => [bs] | None => [] end
                 = snd (crun (r_fsm (rxs s)) (half_bits_in [o])) /\
                 (r_fsm (rxs s1) = fst (crun (r_fsm (rxs s)) (half_bits_in [o])) \/
                  r_fsm (rxs s1) = upd_f_packet_end false (fst (crun (r_fsm (rxs s)) (half_bits_in [o]))))).
      { intros Ha Hb Hc. rewrite Hb, Hc. split; [reflexivity|left; exact Ha]. }
      clear IH Hnf1 Hnd1 HR1 H2. destruct o as [| | |t| |ds| | |i v]; cbn [step] in H1.
      - apply bind_inv in H1. destruct H1 as (u & s2 & e3 & e4 & Ha & Hb & ->). inversion Hb; subst.
        apply core_init in Ha. injection Ha as Ha _ _. apply Hcore; auto.
      - apply bind_inv in H1. destruct H1 as (u & s2 & e3 & e4 & Ha & Hb & ->). inversion Hb; subst.
        unfold enable in Ha. apply bind_inv in Ha. destruct Ha as (r & s3 & e5 & e6 & Hg & Ha & ->).
        inversion Hg; subst. apply Hcore; auto. destruct (enabled_flag _); inversion Ha; subst; reflexivity.
      - exfalso. apply Hnd. left. reflexivity.
      - apply bind_inv in H1. destruct H1 as ([] & s2 & e3 & e4 & Ha & Hb & ->). inversion Hb; subst. clear Hb.
        destruct HR as (HI & Hq & Hf & Ho & Hl).
        specialize (Hnf [] (OReceive t :: os) eq_refl). cbn [listen_all fold_left] in Hnf.
        cbn [completed half_bits_in flat_map]. destruct (half_bit t) as [b0|] eqn:Et.
        2: { rewrite (receive_invalid E t s Et) in Ha. inversion Ha; subst. cbn [crun snd fst List.app].
             split; [reflexivity|]. right. reflexivity. }
        rewrite receive_machine in Ha.
        assert (Hfull : full s = false) by (unfold full; rewrite Hq; apply Nat.eqb_neq; lia).
        rewrite Hfull in Ha.
        pose proof (machine_sim (l_heard l) (r_fsm (rxs s)) false b0 t HI Et) as Hs. cbv zeta in Hs.
        rewrite (machine_some _ _ _ _ Et) in *.
        cbv zeta. replace (length (l_queue l) =? 31)%nat with false by (symmetry; apply Nat.eqb_neq; lia).
        rewrite andb_false_r in *. cbn [List.app crun]. unfold cstep.
        destruct (machine_hb false (r_fsm (rxs s)) b0) as [f a] eqn:Em. cbn [fst snd] in Hs.
        destruct (reading (l_heard l ++ [b0])) as [| |bs] eqn:Er.
        + destruct Hs as [[-> _]|[[-> | ->] _]]; [discriminate| |];
            inversion Ha; subst; cbn [fst snd List.app]; split; auto; left; reflexivity.
        + destruct Hs as (-> & _). inversion Ha; subst. cbn [fst snd List.app]. split; auto.
        + destruct Hs as (Hby & Hlen & Hs). destruct (valid_packet bs) eqn:Ev.
          * destruct Hs as [-> Hpk]. cbn [fst snd]. rewrite Hpk, app_nil_r. split; [reflexivity|]. left.
            unfold valid_packet in Ev. apply andb_prop in Ev. destruct Ev as [_ Ev]. apply Nat.leb_le in Ev.
            destruct (is_logon bs) eqn:Elg.
            -- assert (Hc := accept_logon E (with_fsm f s) s1 e3).
               cbv zeta in Hc. unfold with_fsm in Hc. cbn [rxs r_fsm set_r_fsm r_deque r_cv] in Hc.
               rewrite Hpk in Hc. specialize (Hc Hby Ev Elg Ha). injection Hc as H1 H2 H3. exact H1.
            -- rewrite accept_ordinary in Ha; unfold with_fsm; cbn [rxs r_fsm set_r_fsm r_deque r_cv];
                 rewrite ?Hpk; auto; [|rewrite Hq; lia].
               inversion Ha; subst. reflexivity.
          * destruct Hs as (-> & _). inversion Ha; subst. cbn [fst snd List.app]. split; auto.
      - apply execute_effect in H1. destruct H1 as [(_ & _ & -> & _)|(_ & _ & Hc)]; apply Hcore; auto.
        injection Hc as Hc _ _. exact Hc.
      - apply bind_inv in H1. destruct H1 as (u & s2 & e3 & e4 & Ha & Hb & ->). inversion Hb; subst.
        apply core_datagram in Ha. injection Ha as Ha _ _. apply Hcore; auto.
      - apply bind_inv in H1. destruct H1 as (u & s2 & e3 & e4 & Ha & Hb & ->). inversion Hb; subst.
        apply core_biDi1 in Ha. injection Ha as Ha _ _. apply Hcore; auto.
      - apply bind_inv in H1. destruct H1 as (u & s2 & e3 & e4 & Ha & Hb & ->). inversion Hb; subst.
        apply core_biDi2 in Ha. injection Ha as Ha _ _. apply Hcore; auto.
      - destruct (nth_error (pending s) i) as [c|]; [|inversion H1; subst; apply Hcore; auto].
        apply bind_inv in H1. destruct H1 as (u & s2 & e3 & e4 & Ha & Hb & ->). inversion Hb; subst.
        apply core_run_cb in Ha. injection Ha as Ha _ _. apply Hcore; auto. }
    destruct Ho as [Ho Hf]. rewrite Ho.
    destruct (crun (r_fsm (rxs s)) (half_bits_in [o])) as [f1 p1]. cbn [fst snd] in *.
    assert (Hpe : snd (crun (r_fsm (rxs s1)) (half_bits_in os)) = snd (crun f1 (half_bits_in os))).
    { destruct Hf as [-> | ->]; [reflexivity|]. destruct (half_bits_in os); [reflexivity|].
      cbn [crun]. destruct f1 as [[] ? ? ? ? ? ?]; reflexivity. }
    rewrite IH, Hpe. destruct (crun f1 (half_bits_in os)). reflexivity.
  Qed.

End Arrived.
