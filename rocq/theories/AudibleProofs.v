(** What a decoder makes of half bits that carry packets, whatever lies between the packets *)
From Verif Require Import Prelude Address ZBits SpecCodec SpecTx TxProofs Tx RxState Rx CodecProofs CodecProofs2 RxLogic SpecRx
  RxBitProofs RxBitProofs2 RxBitProofs3 RxBitProofs4 RxBitProofs5 SpecExec SpecConf SpecCv SpecLogon SpecBidi SpecSafe SafeProofs2
  SpecLayout LayoutProofs4 LayoutProofs5 LayoutProofs6 SpecLayout2 LayoutProofs7 LayoutProofs8 ReplProofs ReplProofs3
  SpecStation StationProofs StationProofs2.

(** ** Half bits without a packet *)

(** Counting a preamble of [j] half bits so far *)
Definition quiet (j : nat) (f : fsm) : Prop :=
  f_state f = Preamble /\ f_bit_count f = j /\ f_byte f = 0 /\ f_checksum f = 0.

Lemma silent_arun : forall f hs f', silent false f hs f' -> arun f hs = [].
Proof.
  intros f hs f' H. induction H as [f|f b f1 hs f2 Hm H IH]; [reflexivity|].
  cbn [arun]. unfold mstep. rewrite Hm. cbn [fst List.app]. exact IH.
Qed.

Lemma quiet_step : forall j f b, quiet j f -> (j < 20)%nat ->
  fits f [b] /\ arun f [b] = [] /\ quiet (if b then S j else 0) (fst (mstep f b)).
Proof.
  intros j f b (H1 & H2 & H3 & H4) Hj. destruct f as [ph bc by_ ck hb pk pe]. cbn in H1, H2, H3, H4. subst.
  cbn [fits arun]. unfold mstep, machine_hb, machine_bit. cbn -[Nat.ltb].
  destruct b; cbn -[Nat.ltb].
  - split; [split; [discriminate|exact Logic.I]|]. split; [reflexivity|]. repeat split.
  - replace (j <? 20)%nat with true by (symmetry; apply Nat.ltb_lt; exact Hj). cbn.
    split; [split; [discriminate|exact Logic.I]|]. split; [reflexivity|]. repeat split.
Qed.

(** Ones at the end *)
Definition trailing (j : nat) (hs : list bool) : nat := fold_left (fun j (b : bool) => if b then S j else 0%nat) hs j.
(** Never 20 ones in a row before a zero *)
Fixpoint calm (j : nat) (hs : list bool) : Prop :=
  match hs with [] => True | b :: r => (j < 20)%nat /\ calm (if b then S j else 0) r end.

Lemma calm_run : forall hs j f, quiet j f -> calm j hs ->
  fits f hs /\ arun f hs = [] /\ quiet (trailing j hs) (fst (mrun f hs)).
Proof.
  induction hs as [|b hs IH]; intros j f Hq Hc; [repeat split; apply Hq|].
  destruct Hc as [Hj Hc]. destruct (quiet_step j f b Hq Hj) as (H1 & H2 & H3).
  destruct (IH _ _ H3 Hc) as (H4 & H5 & H6).
  change (b :: hs) with ([b] ++ hs). rewrite fits_app, arun_app, mrun_app. cbn [mrun].
  destruct (mstep f b) as [f1 p1]. cbn [fst] in *. destruct (mrun f1 hs) as [f2 p2]. cbn [fst] in *.
  rewrite H2, H5. auto.
Qed.

Lemma calm_app : forall a j b, calm j (a ++ b) <-> calm j a /\ calm (trailing j a) b.
Proof.
  induction a as [|x a IH]; intros j b; cbn [List.app calm]; [cbn; tauto|].
  rewrite IH. cbn [trailing fold_left]. unfold trailing. tauto.
Qed.
Lemma trailing_app : forall a j b, trailing j (a ++ b) = trailing (trailing j a) b.
Proof. intros. unfold trailing. apply fold_left_app. Qed.

Lemma fst_mrun_app : forall a f b, fst (mrun f (a ++ b)) = fst (mrun (fst (mrun f a)) b).
Proof. intros a f b. rewrite mrun_app. destruct (mrun f a) as [f1 p1]. cbn [fst]. destruct (mrun f1 b). reflexivity. Qed.

(** ** A packet *)

Lemma frame_run : forall bs k j f, packet_ok bs -> quiet j f -> (20 <= j + k)%nat -> (1 <= k)%nat ->
  let hs := repeat true k ++ [false; false] ++ doubled (frame_bits bs) in
  fits f hs /\ between (fst (mrun f hs)) /\ arun f hs = [bs] /\
  exists init, hs = init ++ [true] /\ arun f init = [].
Proof.
  intros bs k j f (Hby & Hlen & Hx & Hlg) (H1 & H2 & H3 & H4) Hk Hk1 hs. subst hs.
  destruct bs as [|b bs]; [cbn [length] in Hlen; lia|].
  inversion Hby as [|? ? Hb1 Hb2]; subst.
  destruct f as [ph bc by_ ck hb pk pe]. cbn in H1, H3, H4, Hk. cbn [f_bit_count] in *. subst ph by_ ck.
  set (j := bc) in *.
  pose proof (silent_ones k j (Mk_fsm Preamble j 0 0 hb pk pe) eq_refl eq_refl Hk1) as S1.
  unfold upd_f_bit_count, upd_f_packet_end in S1. cbn [f_state f_byte f_checksum f_is_halfbit f_packet f_packet_end f_bit_count] in S1.
  assert (S2 : mrun (Mk_fsm Preamble (j + k) 0 0 hb pk false) [false; false] = (Mk_fsm Data 0 0 0 false [] false, []) /\
    fits (Mk_fsm Preamble (j + k) 0 0 hb pk false) [false; false] /\
    arun (Mk_fsm Preamble (j + k) 0 0 hb pk false) [false; false] = []).
  { cbn [mrun fits arun]. unfold mstep, machine_hb, machine_bit. cbn -[Nat.ltb Nat.add].
    replace (j + k <? 20)%nat with false by (symmetry; apply Nat.ltb_ge; lia). cbn.
    split; [reflexivity|]. split; [repeat split; discriminate|reflexivity]. }
  destruct S2 as (S2a & S2b & S2c).
  pose proof (silent_byte b 0 [] Hb1 ltac:(unfold byte; lia) ltac:(cbn [length]; lia)) as S3.
  pose proof (silent_bytes bs (Z.lxor 0 b) ([] ++ [b]) Hb2
      ltac:(rewrite Z.lxor_0_l; exact Hb1) ltac:(cbn [length List.app] in *; lia)) as S4.
  rewrite Z.lxor_0_l in S3, S4. change (Z.lxor b (xor_all bs)) with (xor_all (b :: bs)) in S4. rewrite Hx in S4.
  change (([] ++ [b]) ++ bs) with (b :: bs) in S4.
  assert (S5 : mrun (Mk_fsm Endbit 0 0 0 false (b :: bs) false) [true] = (Mk_fsm Endbit 0 0 0 true (b :: bs) false, []) /\
    fits (Mk_fsm Endbit 0 0 0 false (b :: bs) false) [true] /\ arun (Mk_fsm Endbit 0 0 0 false (b :: bs) false) [true] = []).
  { repeat split; discriminate. }
  destruct S5 as (S5a & S5b & S5c).
  assert (S6 : fits (Mk_fsm Endbit 0 0 0 true (b :: bs) false) [true] /\
    arun (Mk_fsm Endbit 0 0 0 true (b :: bs) false) [true] = [b :: bs] /\
    mrun (Mk_fsm Endbit 0 0 0 true (b :: bs) false) [true] = (Mk_fsm Preamble 0 0 0 false (b :: bs) true, [b :: bs])).
  { cbn [mrun fits arun]. unfold mstep, machine_hb, machine_bit. cbn -[Nat.leb length is_logon].
    replace (3 <=? length (b :: bs))%nat with true by (symmetry; apply Nat.leb_le; lia).
    cbn -[Nat.leb length is_logon]. rewrite Hlg. split; [split; [discriminate|exact Logic.I]|]. split; reflexivity. }
  destruct S6 as (S6b & S6c & S6a).
  set (init := repeat true k ++ [false; false] ++ doubled (msb_first b) ++ doubled (flat_map (fun b => false :: msb_first b) bs) ++ [true]).
  assert (Hi : repeat true k ++ [false; false] ++ doubled (frame_bits (b :: bs)) = init ++ [true]).
  { unfold init, frame_bits. cbn [flat_map tl]. cbn [List.app tl]. rewrite !doubled_app.
    change (doubled [true]) with ([true] ++ [true]). rewrite <- !app_assoc. cbn [List.app]. rewrite <- ?app_assoc. reflexivity. }
  assert (Hall : fits (Mk_fsm Preamble j 0 0 hb pk pe) init /\ arun (Mk_fsm Preamble j 0 0 hb pk pe) init = [] /\
     fst (mrun (Mk_fsm Preamble j 0 0 hb pk pe) init) = Mk_fsm Endbit 0 0 0 true (b :: bs) false).
  { unfold init. rewrite !fits_app, !arun_app, !fst_mrun_app.
    rewrite (silent_mrun _ _ _ S1). cbn [fst]. rewrite S2a. cbn [fst]. rewrite (silent_mrun _ _ _ S3). cbn [fst].
    rewrite (silent_mrun _ _ _ S4). cbn [fst]. rewrite S5a. cbn [fst].
    rewrite (silent_arun _ _ _ S1), S2c, (silent_arun _ _ _ S3), (silent_arun _ _ _ S4), S5c.
    pose proof (silent_fits _ _ _ S1). pose proof (silent_fits _ _ _ S3). pose proof (silent_fits _ _ _ S4).
    split; [tauto|]. split; reflexivity. }
  destruct Hall as (A1 & A2 & A3).
  rewrite Hi. rewrite fits_app, arun_app, mrun_app.
  destruct (mrun (Mk_fsm Preamble j 0 0 hb pk pe) init) as [f1 q1]. cbn [fst] in A3. subst f1. cbn [fst].
  rewrite A2, S6a, S6c. split; [split; assumption|]. split; [repeat split|]. split; [reflexivity|].
  exists init. split; [reflexivity|exact A2].
Qed.

(** ** Packet after packet *)

(** What is heard of a packet, interval by interval: of the first interval anything or
    nothing, of the other half bits what they are, of a cutout nothing or zeros *)
Definition heard_as (c : tx_config) (p : option (list Z)) (es : list (list bool)) : Prop :=
  exists pre rest, es = (pre :: map (fun b => [b]) (tl (doubled (bits_of c p)))) ++ rest /\ (length pre <= 1)%nat /\
    Forall (fun l => l = [] \/ l = [false]) rest /\ length rest = (if cfg_bidi c then 5 else 0)%nat.

Lemma concat_singles : forall (A : Type) (l : list A), concat (map (fun b => [b]) l) = l.
Proof. induction l as [|x l IH]; [reflexivity|]. cbn [map concat List.app]. rewrite IH. reflexivity. Qed.

Lemma zeros_concat : forall l m, Forall (fun l => l = [] \/ l = [false]) l -> exists k, concat (firstn m l) = repeat false k.
Proof.
  induction l as [|x l IH]; intros m H; [exists 0%nat; rewrite firstn_nil; reflexivity|].
  inversion H as [|? ? Hx Hl]; subst. destruct m as [|m]; [exists 0%nat; reflexivity|].
  destruct (IH m Hl) as (k & Hk). cbn [firstn concat]. rewrite Hk.
  destruct Hx as [->| ->]; [exists k|exists (S k)]; reflexivity.
Qed.

Definition preamble_of (c : tx_config) (p : option (list Z)) : nat :=
  match p with None => 17 | Some _ => Z.to_nat (num_preamble c) end.

Lemma doubled_bits : forall c p, config_ok c -> packet_ok (bytes p) ->
  doubled (bits_of c p) = true :: repeat true (2 * preamble_of c p - 1) ++ [false; false] ++ doubled (frame_bits (bytes p)).
Proof.
  intros c p Hc Hp. unfold bits_of. fold (preamble_of c p).
  rewrite track_bits_split by (destruct Hp as (_ & H & _); intros H0; rewrite H0 in H; cbn in H; lia).
  assert (1 <= preamble_of c p)%nat by (destruct Hc; destruct p; cbn; lia).
  replace (2 * preamble_of c p)%nat with (S (2 * preamble_of c p - 1)) at 1 by lia. reflexivity.
Qed.

Lemma halves_length : forall c p, config_ok c -> length (halves c p) = length (doubled (bits_of c p)).
Proof.
  intros c p Hc. pose proof (halves_heard c p Hc) as H. apply (f_equal (@length _)) in H. rewrite !map_length in H. exact H.
Qed.

Lemma stream_run : forall c ps ess, config_ok c -> Forall2 (heard_as c) ps ess -> Forall (fun p => packet_ok (bytes p)) ps ->
  forall n j f, quiet j f -> (j < 20)%nat ->
  fits f (concat (firstn n (concat ess))) /\ arun f (concat (firstn n (concat ess))) = finished c ps n.
Proof.
  intros c ps ess Hc H. induction H as [|p es ps ess Hes H IH]; intros Hps n j f Hq Hj.
  { cbn [concat]. rewrite firstn_nil. split; [exact Logic.I|reflexivity]. }
  inversion Hps as [|? ? Hp Hps']; subst. destruct Hes as (pre & rest & -> & Hpre & Hrest & Hlr).
  cbn [concat finished]. fold (halves c p). rewrite (halves_length c p Hc), (doubled_bits c p Hc Hp).
  cbn [tl].
  set (hs := repeat true (2 * preamble_of c p - 1) ++ [false; false] ++ doubled (frame_bits (bytes p))).
  assert (Hpr : fits f pre /\ arun f pre = [] /\ exists j', quiet j' (fst (mrun f pre))).
  { destruct pre as [|b [|]]; [|  |cbn [length] in Hpre; lia].
    - split; [exact Logic.I|]. split; [reflexivity|]. exists j. exact Hq.
    - destruct (quiet_step j f b Hq Hj) as (H1 & H2 & H3). split; [exact H1|]. split; [exact H2|].
      eexists. cbn [mrun]. destruct (mstep f b). cbn [fst] in *. exact H3. }
  destruct Hpr as (P1 & P2 & j' & P3).
  assert (Hn17 : (17 <= preamble_of c p)%nat) by (destruct Hc; destruct p; cbn; lia).
  destruct (frame_run (bytes p) (2 * preamble_of c p - 1) j' _ Hp P3 ltac:(lia) ltac:(lia)) as (F1 & F2 & F3 & init & F4 & F5).
  fold hs in F1, F2, F3, F4. clearbody hs. cbn [length].
  assert (Hlen : length (pre :: map (fun b : bool => [b]) hs) = S (length hs)) by (cbn [length]; rewrite map_length; reflexivity).
  rewrite <- app_assoc, firstn_app, Hlen, concat_app, fits_app, arun_app.
  destruct (Nat.ltb_spec n (S (length hs))) as [Hn|Hn].
  - replace (n - S (length hs))%nat with 0%nat by lia. rewrite firstn_O. cbn [concat fits arun]. rewrite app_nil_r.
    destruct n as [|n]; [cbn [firstn concat fits arun]; auto|]. cbn [firstn concat]. rewrite firstn_map, concat_singles.
    rewrite fits_app, arun_app, P2. rewrite <- (firstn_skipn n hs) in F1 at 1. apply fits_app in F1.
    split; [split; [split; [exact P1|apply F1]|exact Logic.I]|]. cbn [List.app].
    assert (Hl : (n <= length init)%nat).
    { apply (f_equal (@length _)) in F4. rewrite app_length in F4. cbn [length] in F4. lia. }
    rewrite F4, firstn_map_cons by exact Hl. rewrite <- (firstn_skipn n init), arun_app in F5.
    apply app_eq_nil in F5. apply F5.
  - set (m := (n - S (length hs))%nat).
    rewrite firstn_all2 by (rewrite Hlen; lia). cbn [concat]. rewrite concat_singles.
    rewrite fits_app, arun_app, fst_mrun_app, P2, F3. cbn [List.app].
    rewrite firstn_app, concat_app, Hlr.
    destruct (zeros_concat rest m Hrest) as (k & ->).
    destruct (fits_zeros k _ F2) as [Z1 Z2].
    assert (Z3 : arun (fst (mrun (fst (mrun f pre)) hs)) (repeat false k) = []).
    { destruct (mrun_zeros k _ F2) as (f' & Hz & _). clear - F2. revert F2.
      generalize (fst (mrun (fst (mrun f pre)) hs)) as g. clear f. induction k as [|k IH]; intros g Hg; [reflexivity|].
      change (repeat false (S k)) with ([false] ++ repeat false k). rewrite arun_app.
      destruct (quiet_step 0 g false Hg ltac:(lia)) as (_ & Ha & Hb). rewrite Ha. cbn [List.app mrun].
      destruct (mstep g false). cbn [fst] in *. apply IH. exact Hb. }
    destruct (IH Hps' (m - (if cfg_bidi c then 5 else 0))%nat 0%nat _ Z2 ltac:(lia)) as [I1 I2].
    rewrite fits_app, arun_app, Z3. cbn [List.app]. rewrite I2.
    split; [auto|]. destruct p; reflexivity.
Qed.

(** ** The decoder *)

Lemma mrun_arun : forall hs f, snd (mrun f hs) = filter (fun p => negb (is_logon p)) (arun f hs) /\
  snd (lrun f hs) = filter is_logon (arun f hs).
Proof.
  induction hs as [|b hs IH]; intros f; [split; reflexivity|]. cbn [mrun lrun arun]. unfold mstep, lstep.
  destruct (machine_hb false f b) as [f' []]; cbn [fst List.app];
    try (specialize (IH f'); destruct (mrun f' hs), (lrun f' hs); exact IH).
  specialize (IH (reset_fsm (upd_f_packet_end true f'))).
  destruct (mrun _ hs), (lrun _ hs). cbn [snd filter] in *. destruct IH as [-> ->].
  destruct (is_logon (f_packet f')); split; reflexivity.
Qed.

(** Beginning with the registers after power up, exactly the packets [fin] are completed *)
Definition audible (hs : list bool) (fin : list (list Z)) : Prop :=
  let f0 := reset_fsm (Mk_fsm Preamble 0 0 0 false [] false) in fits f0 hs /\ arun f0 hs = fin.

Lemma audible_orderly : forall (sent : list Z -> Prop) dos fin, audible (half_bits_in dos) fin ->
  Forall (fun p => sent p /\ is_logon p = false) fin -> ~ In ODisable dos -> never_full dos listener0 ->
  on_time dos -> orderly sent dos.
Proof.
  intros sent dos fin [Hfits Har] Hfin Hnd Hnf Hon.
  set (f0 := reset_fsm (Mk_fsm Preamble 0 0 0 false [] false)) in *.
  assert (Hall : forall p, In p (arun f0 (half_bits_in dos)) -> sent p /\ is_logon p = false).
  { rewrite Har. rewrite Forall_forall in Hfin. exact Hfin. }
  assert (HI0 : Inv (l_heard listener0) f0) by (unfold f0, Inv; cbn; auto).
  pose proof (listener_machine dos listener0 f0 HI0 Hnd Hnf Hfits) as HL.
  intros os1 o os2 He. cbv zeta. specialize (Hon os1 o os2 He).
  destruct (HL os1 o os2 He) as [H1 H2]. destruct o as [| | |t| |ds| | |i v]; try exact Logic.I; try exact Hon.
  split; [|split].
  - destruct (half_bit t) as [b|] eqn:Et; [|exact Logic.I]. exact (H1 t b eq_refl Et).
  - intros p Hp. exact (proj1 (Hall p (H2 p Hp))).
  - intros u1 t1 u2 p Hu Hp Hlg. exfalso.
    destruct (HL u1 (OReceive t1) (u2 ++ OReceive t :: os2)) as [_ H3].
    { rewrite He, Hu, <- app_assoc. reflexivity. }
    destruct (Hall p (H3 p Hp)) as [_ Hno]. congruence.
Qed.

Section Audible.
  Context {I : Type} (E : Env I) (time : I -> Z) (HE : short_cv1 E) (HC : clock E time).

  Lemma audible_run : forall i dos fin, 0 <= time i -> audible (half_bits_in dos) fin ->
    Forall (fun p => complete p /\ is_logon p = false) fin -> ~ In ODisable dos -> never_full dos listener0 -> on_time dos ->
    exists s es, run E (OInit :: dos) (st0 i) = Ok (tt, s, es) /\ logons dos listener0 = [] /\
      heard dos listener0 = fin /\ fin = SpecRx.taken dos listener0 ++ r_deque (rxs s) /\
      r_deque (rxs s) = l_queue (listen_all dos listener0).
  Proof.
    intros i dos fin Hi Ha Hfin Hnd Hnf Hon.
    assert (Hnf1 : never_full (OInit :: dos) listener0).
    { intros [|a os1] os2 He; [cbn; lia|]. cbn [List.app] in He. injection He as <- He. exact (Hnf os1 os2 He). }
    assert (Hnd1 : ~ In ODisable (OInit :: dos)) by (intros [H|H]; [discriminate H|exact (Hnd H)]).
    assert (Hor : orderly complete (OInit :: dos)).
    { apply (audible_orderly complete (OInit :: dos) fin Ha Hfin Hnd1 Hnf1).
      intros [|a os1] o os2 He; cbn [List.app] in He; [injection He as <- _; exact Logic.I|].
      injection He as <- He. exact (Hon os1 o os2 He). }
    destruct (history E HE time HC i _ Hi Hor) as (s & es & Hrun).
    exists s, es. split; [exact Hrun|].
    assert (Hh : heard dos listener0 = fin).
    { change (heard (OInit :: dos) listener0 = fin).
      rewrite (heard_machine E _ _ _ _ _ (Rl0 i) Hrun Hnd1 Hnf1), (proj1 (mrun_arun _ _)).
      change (half_bits_in (OInit :: dos)) with (half_bits_in dos).
      destruct Ha as [_ Ha]. change (r_fsm (rxs (st0 i))) with (reset_fsm (Mk_fsm Preamble 0 0 0 false [] false)). rewrite Ha.
      apply filter_all. eapply Forall_impl; [|exact Hfin]. intros p [_ ->]. reflexivity. }
    split; [|split; [exact Hh|]].
    - change (logons (OInit :: dos) listener0 = []).
      rewrite (logons_machine E _ _ _ _ _ (Rl0 i) Hrun Hnd1 Hnf1), (proj2 (mrun_arun _ _)).
      change (half_bits_in (OInit :: dos)) with (half_bits_in dos).
      destruct Ha as [_ Ha]. change (r_fsm (rxs (st0 i))) with (reset_fsm (Mk_fsm Preamble 0 0 0 false [] false)). rewrite Ha.
      clear - Hfin. induction Hfin as [|p l [_ Hp] H IH]; [reflexivity|]. cbn [filter]. rewrite Hp. exact IH.
    - split; [|apply (run_refines E (OInit :: dos) listener0 (st0 i) s es (Rl0 i) Hrun)].
      rewrite <- Hh. apply (fifo E i (OInit :: dos) s es Hrun).
  Qed.
End Audible.
