(** The traffic of a command station is one a decoder can take *)
From Verif Require Import Prelude Address ZBits SpecCodec SpecTx TxProofs Tx RxState Rx CodecProofs RxLogic SpecRx
  RxBitProofs RxBitProofs2 RxBitProofs3 RxBitProofs4 RxBitProofs5 SpecExec SpecConf SpecCv SpecLogon SpecBidi SpecSafe SpecLayout LayoutProofs5.

(** ** The bit registers never overflow on such a track *)

Fixpoint fits (f : fsm) (hs : list bool) : Prop :=
  match hs with
  | [] => True
  | b :: r => snd (machine_hb false f b) <> AOverflow /\ fits (fst (mstep f b)) r
  end.

Lemma fits_app : forall a f b, fits f (a ++ b) <-> fits f a /\ fits (fst (mrun f a)) b.
Proof.
  induction a as [|x a IH]; intros f b; cbn [List.app fits mrun]; [cbn [fst]; tauto|].
  rewrite IH. destruct (mstep f x) as [f1 p1]. cbn [fst]. destruct (mrun f1 a). cbn [fst]. tauto.
Qed.

Lemma silent_fits : forall f hs f', silent false f hs f' -> fits f hs.
Proof.
  intros f hs f' H. induction H as [f|f b f1 hs f2 Hm H IH]; [exact Logic.I|].
  cbn [fits]. unfold mstep. rewrite Hm. cbn [fst snd]. split; [discriminate|exact IH].
Qed.

Lemma fits_packet : forall n bs f, packet_ok bs -> (10 <= n)%nat -> between f ->
  fits f (doubled (track_bits n bs)) /\ between (fst (mrun f (doubled (track_bits n bs)))).
Proof.
  intros n bs f Hok Hn Hb. split.
  2: { destruct (mrun_packet n bs f Hok Hn Hb) as (init & f1 & f2 & -> & Hi & Hm & Hb2).
       rewrite mrun_app, Hi. cbn [mrun]. rewrite Hm. exact Hb2. }
  destruct Hok as (Hby & Hlen & Hx & Hlg). destruct Hb as (H1 & H2 & H3 & H4).
  destruct bs as [|b bs]; [cbn [length] in Hlen; lia|].
  inversion Hby as [|? ? Hb1 Hb2]; subst.
  rewrite track_bits_split by discriminate. unfold frame_bits. cbn [flat_map List.app tl].
  rewrite !doubled_app. 
  destruct f as [ph bc by_ ck hb pk pe]. cbn in H1, H2, H3, H4. subst ph bc by_ ck.
  pose proof (silent_ones (2 * n) 0 (Mk_fsm Preamble 0 0 0 hb pk pe) eq_refl eq_refl ltac:(lia)) as S1.
  apply fits_app. split; [exact (silent_fits _ _ _ S1)|]. rewrite (silent_mrun _ _ _ S1). cbn [fst].
  unfold upd_f_bit_count, upd_f_packet_end. cbn [f_state f_byte f_checksum f_is_halfbit f_packet f_packet_end f_bit_count].
  assert (Hst : mrun (Mk_fsm Preamble (0 + 2 * n) 0 0 hb pk false) [false; false] = (Mk_fsm Data 0 0 0 false [] false, [])).
  { cbn [mrun]. unfold mstep, machine_hb, machine_bit. cbn -[Nat.ltb Nat.mul].
    replace (2 * n <? 20)%nat with false by (symmetry; apply Nat.ltb_ge; lia). reflexivity. }
  match goal with |- fits ?f (?x :: ?y :: ?r) => change (fits f ([x; y] ++ r)) end.
  apply fits_app. split.
  { cbn [fits]. unfold mstep, machine_hb, machine_bit. cbn -[Nat.ltb Nat.mul].
    replace (2 * n <? 20)%nat with false by (symmetry; apply Nat.ltb_ge; lia).
    cbn. repeat split; discriminate. }
  rewrite Hst. cbn [fst]. rewrite ?doubled_app, <- ?app_assoc.
  pose proof (silent_byte b 0 [] Hb1 ltac:(unfold byte; lia) ltac:(cbn [length]; lia)) as S2.
  apply fits_app. split; [exact (silent_fits _ _ _ S2)|]. rewrite (silent_mrun _ _ _ S2). cbn [fst].
  pose proof (silent_bytes bs (Z.lxor 0 b) ([] ++ [b]) Hb2
      ltac:(rewrite Z.lxor_0_l; exact Hb1) ltac:(cbn [length List.app] in *; lia)) as S3.
  apply fits_app. split; [exact (silent_fits _ _ _ S3)|]. rewrite (silent_mrun _ _ _ S3). cbn [fst].
  change (doubled [true]) with [true; true]. cbn [fits].
  rewrite Z.lxor_0_l. change (Z.lxor b (xor_all bs)) with (xor_all (b :: bs)). rewrite Hx.
  unfold mstep, machine_hb, machine_bit. cbn -[Nat.leb length is_logon].
  replace (3 <=? length (b :: bs))%nat with true by (symmetry; apply Nat.leb_le; lia).
  cbn -[Nat.leb length is_logon]. repeat (split; [discriminate|]). exact Logic.I.
Qed.

Lemma fits_zeros : forall k f, between f -> fits f (repeat false k) /\ between (fst (mrun f (repeat false k))).
Proof.
  intros k f Hf. split.
  2: { destruct (mrun_zeros k f Hf) as (f' & -> & H). exact H. }
  revert f Hf. induction k as [|k IH]; intros f Hf; [exact Logic.I|]. cbn [repeat fits].
  destruct Hf as (H1 & H2 & H3 & H4). destruct f as [ph bc by_ ck hb pk pe]. cbn in H1, H2, H3, H4. subst.
  split; [discriminate|].
  change (fst (mstep (Mk_fsm Preamble 0 0 0 hb pk pe) false)) with (reset_fsm (Mk_fsm Preamble 0 0 0 hb pk false)).
  apply IH. repeat split.
Qed.

Lemma fits_track : forall c ps f, config_ok c -> Forall (fun p => packet_ok (bytes p)) ps -> between f ->
  fits f (halves_of (map fst (flat_map (on_track c) ps))).
Proof.
  intros c ps. induction ps as [|p ps IH]; intros f Hc Hps Hf; [exact Logic.I|].
  inversion Hps as [|? ? Hp Hps']; subst. cbn [flat_map].
  rewrite map_app. unfold on_track at 1. rewrite map_app, alternate_fst. fold (halves c p).
  rewrite <- app_assoc, halves_of_app, (halves_of_map _ _ (halves_heard c p Hc)).
  destruct (fits_packet (match p with None => 17 | Some _ => Z.to_nat (num_preamble c) end) (bytes p) f Hp) as [F1 B1];
    [destruct Hc; destruct p; lia|exact Hf|]. fold (bits_of c p) in F1, B1.
  apply fits_app. split; [exact F1|]. rewrite halves_of_app.
  assert (Hcut : exists k, halves_of (map fst (if cfg_bidi c then SpecTx.cutout c else [])) = repeat false k).
  { destruct (cfg_bidi c); [exists 2%nat|exists 0%nat]; reflexivity. }
  destruct Hcut as (k & ->). destruct (fits_zeros k _ B1) as [F2 B2].
  apply fits_app. split; [exact F2|]. apply IH; assumption.
Qed.

Lemma fits_beginning : forall c ps n f, config_ok c -> Forall (fun p => packet_ok (bytes p)) ps -> between f ->
  fits f (halves_of (firstn n (map fst (flat_map (on_track c) ps)))).
Proof.
  intros c ps n f Hc Hps Hf. pose proof (fits_track c ps f Hc Hps Hf) as H.
  rewrite <- (firstn_skipn n (map fst (flat_map (on_track c) ps))), halves_of_app in H.
  apply fits_app in H. apply H.
Qed.

(** ** Packets completed *)

Fixpoint arun (f : fsm) (hs : list bool) : list (list Z) :=
  match hs with
  | [] => []
  | b :: r =>
      match machine_hb false f b with (f', AAccept) => [f_packet f'] | _ => [] end ++ arun (fst (mstep f b)) r
  end.

Lemma arun_app : forall a f b, arun f (a ++ b) = arun f a ++ arun (fst (mrun f a)) b.
Proof.
  induction a as [|x a IH]; intros f b; [reflexivity|]. cbn [List.app arun mrun].
  rewrite IH, app_assoc. destruct (mstep f x) as [f1 p1]. cbn [fst]. destruct (mrun f1 a). reflexivity.
Qed.

Lemma arun_either : forall hs f p, In p (arun f hs) -> In p (snd (mrun f hs)) \/ In p (snd (lrun f hs)).
Proof.
  induction hs as [|b hs IH]; intros f p H; [destruct H|]. cbn [arun mrun lrun] in *.
  assert (Hf : fst (lstep f b) = fst (mstep f b)).
  { unfold lstep, mstep. destruct (machine_hb false f b) as [f' []]; reflexivity. }
  apply in_app_or in H. destruct H as [H|H].
  - unfold mstep, lstep. destruct (machine_hb false f b) as [f' a]. destruct a; try destruct H as [H|[]]; try destruct H.
    destruct (is_logon (f_packet f')); [right|left].
    + destruct (lrun _ hs). cbn [snd]. apply in_or_app. left. left. reflexivity.
    + destruct (mrun _ hs). cbn [snd]. apply in_or_app. left. left. reflexivity.
  - apply IH in H. destruct (mstep f b) as [f1 p1]. destruct (lstep f b) as [f2 p2]. cbn [fst] in *. subst f2.
    destruct (mrun f1 hs). destruct (lrun f1 hs). cbn [snd] in *.
    destruct H as [H|H]; [left|right]; apply in_or_app; right; exact H.
Qed.

Lemma packet_frame : forall hs bs, reading hs = Packet bs -> frame_so_far hs = bs.
Proof.
  intros hs bs H. unfold reading in H. unfold frame_so_far. destruct (after_ones hs) as [|x [|y body]]; try discriminate H.
  - destruct (ones hs <? 20)%nat; discriminate H.
  - destruct (ones hs <? 20)%nat; [discriminate H|]. destruct (bytes_of (samples body)) as [q []]; [|discriminate H].
    cbn [fst]. congruence.
Qed.

Lemma ones_app_false : forall n r, ones (repeat true n ++ false :: r) = n.
Proof. induction n; intros r; [reflexivity|]. cbn [repeat List.app ones]. rewrite IHn. reflexivity. Qed.

Lemma lost_frame : forall h f b, Inv h f -> reading (h ++ [b]) = Lost -> frame_so_far (h ++ [b]) = [].
Proof.
  intros h f b HI H. unfold Inv in HI.
  assert (Hlong : forall n r, (20 <= n)%nat -> reading (repeat true n ++ false :: r) <> Lost).
  { intros n r Hn. unfold reading. rewrite ones_app_false.
    replace (n <? 20)%nat with false by (symmetry; apply Nat.ltb_ge; lia).
    destruct (after_ones _) as [|y [|z body]]; try discriminate.
    destruct (bytes_of (samples body)) as [q []]; discriminate. }
  destruct (f_state f).
  - destruct HI as [-> _]. unfold frame_so_far. rewrite after_ones_repeat. destruct b; reflexivity.
  - destruct HI as (_ & _ & n & Hn & ->). exfalso. rewrite <- app_assoc in H. exact (Hlong n [b] Hn H).
  - destruct HI as (_ & _ & _ & n & x & body & bits & Hn & -> & _). exfalso. rewrite <- app_assoc in H.
    exact (Hlong n _ Hn H).
  - destruct HI as (_ & _ & _ & _ & _ & n & x & body & q & bits & Hn & -> & _). exfalso. rewrite <- app_assoc in H.
    exact (Hlong n _ Hn H).
Qed.

(** One call, listener and registers side by side *)
Lemma listen_machine : forall o l f, Inv (l_heard l) f -> o <> ODisable -> (length (l_queue l) < 31)%nat ->
  fits f (half_bits_in [o]) ->
  Inv (l_heard (listen o l)) (fst (mrun f (half_bits_in [o]))) /\
  (forall t b, o = OReceive t -> half_bit t = Some b -> (length (frame_so_far (l_heard l ++ [b])) <= 18)%nat) /\
  (forall p, completed o l = Some p -> In p (arun f (half_bits_in [o]))).
Proof.
  intros o l f HI Hd Hq Hf.
  destruct o as [| | |t| |ds| | |i v]; cbn [listen half_bits_in flat_map List.app completed] in *;
    try (split; [first [exact HI | destruct (l_fresh l); exact HI]|]; split; [intros; discriminate|intros; discriminate]).
  { congruence. }
  destruct (half_bit t) as [b|] eqn:Et.
  2: { split; [exact HI|]. split; [|intros; discriminate]. intros t' b' [= <-] Hb. congruence. }
  cbn [List.app] in *. pose proof (machine_sim (l_heard l) f false b t HI Et) as Hs. cbv zeta in Hs.
  rewrite (machine_some _ _ _ _ Et) in Hs. rewrite andb_false_r in Hs.
  unfold hear. cbv zeta. replace (length (l_queue l) =? 31)%nat with false by (symmetry; apply Nat.eqb_neq; lia).
  rewrite andb_false_r. cbn [mrun arun fits] in *. destruct Hf as [Hf _]. unfold mstep.
  destruct (machine_hb false f b) as [f' a] eqn:Em. cbn [fst snd] in Hs, Hf.
  assert (Hlt : forall P : Prop, (length (frame_so_far (l_heard l ++ [b])) <= 18)%nat -> P ->
    (forall t0 b0, OReceive t = OReceive t0 -> half_bit t0 = Some b0 -> (length (frame_so_far (l_heard l ++ [b0])) <= 18)%nat) /\ P).
  { intros P H1 H2. split; [|exact H2]. intros t0 b0 [= <-] Hb0. replace b0 with b by congruence. exact H1. }
  destruct (reading (l_heard l ++ [b])) as [| |bs] eqn:Er.
  - destruct Hs as [[-> _]|(Ha & HI' & _ & Hlen)]; [congruence|].
    split; [destruct Ha as [-> | ->]; exact HI'|]. apply Hlt; [exact Hlen|intros; discriminate].
  - destruct Hs as (-> & HI' & _). split; [exact HI'|].
    apply Hlt; [|intros; discriminate]. rewrite (lost_frame _ _ _ HI Er). cbn [length]. lia.
  - destruct Hs as (Hby & Hlen & Hs). pose proof (packet_frame _ _ Er) as Hfr.
    destruct (valid_packet bs) eqn:Ev.
    + destruct Hs as [-> Hpk]. cbn [fst l_heard].
      split; [cbn; unfold Inv; cbn; auto|]. apply Hlt; [rewrite Hfr; lia|].
      intros p [= <-]. cbn [List.app In]. left. exact Hpk.
    + destruct Hs as (-> & HI' & _). split; [exact HI'|]. apply Hlt; [rewrite Hfr; lia|intros; discriminate].
Qed.

Lemma listener_machine : forall os l f, Inv (l_heard l) f -> ~ In ODisable os -> never_full os l ->
  fits f (half_bits_in os) ->
  forall os1 o os2, os = os1 ++ o :: os2 -> let l1 := listen_all os1 l in
    (forall t b, o = OReceive t -> half_bit t = Some b -> (length (frame_so_far (l_heard l1 ++ [b])) <= 18)%nat) /\
    (forall p, completed o l1 = Some p -> In p (arun f (half_bits_in os))).
Proof.
  induction os as [|a os IH]; intros l f HI Hnd Hnf Hf os1 o os2 He; [destruct os1; discriminate|].
  change (half_bits_in (a :: os)) with (half_bits_in ([a] ++ os)) in *. rewrite half_bits_in_app in *.
  apply fits_app in Hf. destruct Hf as [Hf1 Hf2].
  assert (Hq : (length (l_queue l) < 31)%nat) by exact (Hnf [] (a :: os) eq_refl).
  assert (Ha : a <> ODisable) by (intros ->; apply Hnd; left; reflexivity).
  destruct (listen_machine a l f HI Ha Hq Hf1) as (HI1 & Hlen & Hcp).
  destruct os1 as [|x os1].
  - injection He as <- <-. cbv zeta. cbn [listen_all fold_left]. split; [exact Hlen|].
    intros p Hp. rewrite arun_app. apply in_or_app. left. apply Hcp. exact Hp.
  - injection He as <- ->. cbv zeta. change (listen_all (a :: os1) l) with (listen_all os1 (listen a l)).
    assert (Hnf1 : never_full (os1 ++ o :: os2) (listen a l)).
    { intros u v Hu. exact (Hnf (a :: u) v ltac:(cbn [List.app]; rewrite Hu; reflexivity)). }
    destruct (IH (listen a l) _ HI1 ltac:(intro; apply Hnd; right; assumption) Hnf1 Hf2 os1 o os2 eq_refl) as [H1 H2].
    split; [exact H1|]. intros p Hp. rewrite arun_app. apply in_or_app. right. apply H2. exact Hp.
Qed.
