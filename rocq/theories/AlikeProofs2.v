(** Any CV memory, as long as CV1 stays short *)
From Verif Require Import Prelude Address ZBits SpecCodec SpecTx TxProofs Tx RxState Rx CodecProofs CodecProofs2 RxLogic SpecRx
  RxBitProofs RxBitProofs2 RxBitProofs3 RxBitProofs4 RxBitProofs5 SpecExec SpecConf SpecCv SpecLogon SpecBidi SpecSafe SafeProofs2
  SpecLayout LayoutProofs4 LayoutProofs5 LayoutProofs6 SpecLayout2 LayoutProofs7 LayoutProofs8 ReplProofs ReplProofs3
  SpecStation StationProofs StationProofs2 StationProofs3 StationProofs4 StationWitness SpecAlike AlikeProofs.
Local Ltac Zify.zify_post_hook ::= Z.div_mod_to_equations.

(** ** Positions of bits *)

Definition placed (x : access) : Prop := match x with CheckBit _ _ k | StoreBit _ _ k => 0 <= k < 8 | Store _ v => byte v | _ => True end.
Definition seen_placed (x : seen) : Prop := match x with Access x => placed x | Told _ => True end.

Section Placed.
  Variable ew : bool.

  Lemma perform_placed : forall x v, placed x -> Forall seen_placed (snd (perform x v)).
  Proof.
    intros x v H. unfold perform. destruct (permitted _ x); [|constructor]. cbn [snd]. constructor; [exact H|].
    destruct (v_service v && _); repeat constructor.
  Qed.
  Lemma perform_all_placed : forall xs v, Forall placed xs -> Forall seen_placed (snd (perform_all xs v)).
  Proof.
    induction xs as [|x xs IH]; intros v H; [constructor|]. inversion H; subst. cbn [perform_all].
    pose proof (perform_placed x v) as Hp. destruct (perform x v) as [v1 a]. specialize (IH v1). destruct (perform_all xs v1) as [v2 b].
    cbn [snd] in *. apply Forall_app. auto.
  Qed.
  Lemma request_placed : forall b0 b1 b2, byte b2 -> Forall placed (request b0 b1 b2).
  Proof.
    intros b0 b1 b2 H. unfold request. pose proof (Z.mod_pos_bound b2 8 ltac:(lia)) as Hb.
    destruct (b0 / 4 mod 4) as [|[[]|[]|]|]; repeat constructor; try exact H; try apply H; destruct (bit_of b2 4); cbn [placed]; lia.
  Qed.
  Lemma due_placed : forall k x, placed x -> Forall placed (due k x).
  Proof. intros k [] H; cbn [due]; destruct k as [|[|[|]]]; repeat constructor; exact H || apply H. Qed.
  Lemma short_placed : forall k b0 b1 b2, byte b1 -> byte b2 -> Forall placed (short_request k b0 b1 b2).
  Proof.
    intros k b0 b1 b2 H1 H2. unfold short_request.
    assert (H0 : byte (192 + b1 mod 64)) by (unfold byte in *; lia).
    repeat match goal with
      | |- Forall _ [] => apply Forall_nil
      | |- Forall _ (_ :: _) => apply Forall_cons; [cbn [placed]; assumption || lia|]
      | |- Forall _ (if ?b then _ else _) => destruct b
      | |- Forall _ (match ?x with _ => _ end) => destruct x
      end.
  Qed.
  Lemma due_all_placed : forall k xs, Forall placed xs -> Forall placed (flat_map (due k) xs).
  Proof. intros k xs H. induction H; [constructor|]. cbn [flat_map]. apply Forall_app. split; [apply due_placed|]; assumption. Qed.
  Lemma told_placed : forall es, Forall seen_placed (map Told es).
  Proof. induction es; constructor; [exact Logic.I|assumption]. Qed.

  Lemma nth_byte : forall p k, Forall byte p -> byte (nth k p 0).
  Proof.
    intros p k H. destruct (nth_in_or_default k p 0) as [Hin| ->]; [|unfold byte; lia]. rewrite Forall_forall in H. auto.
  Qed.
  Lemma body_byte : forall p, Forall byte p -> Forall byte (body_of p).
  Proof.
    intros p H. apply Forall_forall. rewrite Forall_forall in H. intros x Hx. apply H. unfold body_of in Hx.
    destruct (atyp (address_of p)); destruct p as [|b0 [|b1 p]]; cbn [skipn tl] in Hx; auto; cbn [In]; tauto.
  Qed.

  Lemma obey_placed : forall p v, Forall byte p -> Forall seen_placed (snd (obey ew p v)).
  Proof.
    intros p v Hp. unfold obey. destruct (v_service v).
    - unfold service. cbv zeta. repeat match goal with
        | |- Forall _ (snd (if ?b then _ else _)) => destruct b
        | |- Forall _ (snd (_, [])) => constructor
        | |- Forall _ (snd (_, [_])) => repeat constructor
        | |- Forall _ (snd (perform _ _)) => apply perform_placed
        | |- Forall _ (snd (perform_all _ _)) => apply perform_all_placed
        | |- Forall _ (if _ then request _ _ _ else _) => destruct (_ =? 2)%nat; [apply request_placed, nth_byte, Hp|constructor]
        | |- Forall _ (snd (_, if ?b then _ else _)) => cbn [snd]; destruct b; repeat constructor
        | |- placed ((if ?b then _ else _) _ _) => destruct b; cbn [placed]; [apply nth_byte, Hp|exact Logic.I]
        end.
    - unfold operations. destruct (recipient _ p) as [n|]; [|constructor]. pose proof (body_byte p Hp) as Hb.
      destruct (body_of p) as [|b0 t]; [constructor|]. cbv zeta. inversion Hb as [|? ? Hb0 Ht]; subst.
      repeat match goal with
        | |- Forall _ (snd (if ?b then _ else _)) => destruct b
        | |- Forall _ (snd (_, [])) => constructor
        | |- Forall _ (snd (_, [_])) => repeat constructor
        | |- Forall _ (snd (_, map Told _)) => apply told_placed
        | |- Forall _ (snd (perform _ _)) => apply perform_placed
        | |- Forall _ (snd (perform_all _ _)) => apply perform_all_placed
        | |- Forall _ (if ?b then _ else _) => destruct b
        | |- Forall _ (flat_map _ _) => apply due_all_placed, request_placed, nth_byte, Ht
        | |- Forall _ (short_request _ _ _ _) => apply short_placed; apply nth_byte, Ht
        | |- placed (Store _ _) => cbn [placed]; destruct (Z.odd b0 || _); unfold byte; cbn [Z.b2z]; lia
        end.
  Qed.
  Lemma obey_all_placed : forall ps v, Forall (Forall byte) ps -> Forall seen_placed (snd (obey_all ew ps v)).
  Proof.
    induction ps as [|p ps IH]; intros v H; [constructor|]. inversion H as [|? ? H1 H2]; subst.
    cbn [obey_all]. pose proof (obey_placed p v H1) as Hp. destruct (obey ew p v) as [v1 a]. specialize (IH v1 H2). destruct (obey_all ew ps v1) as [v2 b]. cbn [snd] in *. apply Forall_app. auto.
  Qed.
End Placed.

(** ** The same application, restricted to short CV1 *)

Section Short.
  Context {I : Type} (E : Env I) (m : I -> Z -> Z) (able : access -> Prop) (time : I -> Z)
    (Hk : keeps_cvs able E m) (HC : clock E time).

  Definition short : Type := {i : I | m i 0 < 128}.
  Definition keep (i : short) (j : I) : short :=
    match Z_lt_dec (m j 0) 128 with left H => exist _ j H | right _ => i end.
  Definition fits (i : short) (j : I) : bool := if Z_lt_dec (m j 0) 128 then true else false.

  Definition restricted : Env short :=
    Mk_env _
      (fun i a => let x := e_readCv E (proj1_sig i) a in (fst x, keep i (snd x)))
      (fun i a b => let x := e_readCvByte E (proj1_sig i) a b in (fst x, keep i (snd x)))
      (fun i a b k => let x := e_readCvBit E (proj1_sig i) a b k in (fst x, keep i (snd x)))
      (fun i a b => let x := e_writeCv E (proj1_sig i) a b in
        (if fits i (snd x) then fst x else m (proj1_sig i) a, keep i (snd x)))
      (fun i a b k => let x := e_writeCvBit E (proj1_sig i) a b k in
        (if fits i (snd x) then fst x else bit_of (m (proj1_sig i) a) k, keep i (snd x)))
      (fun i e => let x := e_async E (proj1_sig i) e in (fst x, keep i (snd x)))
      (fun i e => keep i (e_hook E (proj1_sig i) e))
      (fun i => let x := e_rand E (proj1_sig i) in (fst x, keep i (snd x)))
      (fun i => let x := e_now E (proj1_sig i) in (fst x, keep i (snd x)))
      (e_async_readable E) (e_async_writable E) (e_high_current E) (e_east_west E).

  Definition m' (i : short) : Z -> Z := m (proj1_sig i).
  Definition time' (i : short) : Z := time (proj1_sig i).

  Lemma keep_in : forall i j, m j 0 < 128 -> proj1_sig (keep i j) = j.
  Proof. intros i j H. unfold keep. destruct (Z_lt_dec (m j 0) 128); [reflexivity|contradiction]. Qed.
  Lemma keep_same : forall i j, m j = m (proj1_sig i) -> proj1_sig (keep i j) = j.
  Proof. intros i j H. apply keep_in. rewrite H. exact (proj2_sig i). Qed.
  Lemma keep_out : forall i j, ~ m j 0 < 128 -> keep i j = i.
  Proof. intros i j H. unfold keep. destruct (Z_lt_dec (m j 0) 128); [contradiction|reflexivity]. Qed.
  Lemma fits_spec : forall i j, fits i j = true <-> m j 0 < 128.
  Proof. intros i j. unfold fits. destruct (Z_lt_dec (m j 0) 128); split; intros; congruence || lia || reflexivity. Qed.

  Definition both (x : access) : Prop := able x /\ sensible x.

  Let Hm : cv_memory E m := proj1 Hk.

  Lemma u8_mem : forall i a, u8 (m i a) = m i a.
  Proof. intros i a. pose proof (mem_byte E m Hm i a) as H. unfold u8, byte in *. lia. Qed.

  Lemma restricted_keeps : keeps_cvs both restricted m'.
  Proof.
    split; [|split].
    - constructor; cbn [restricted e_readCv e_readCvByte e_readCvBit e_writeCv e_writeCvBit e_hook e_rand e_now
        e_async_readable e_async_writable fst snd]; unfold m'.
      + intros i a. apply (mem_byte E m Hm).
      + intros i a. destruct (mem_read E m Hm (proj1_sig i) a) as [H1 H2]. rewrite keep_same by exact H2. auto.
      + intros i a b. destruct (mem_readByte E m Hm (proj1_sig i) a b) as [H1 H2]. rewrite keep_same by exact H2. auto.
      + intros i a b k Hb. destruct (mem_readBit E m Hm (proj1_sig i) a b k Hb) as [H1 H2]. rewrite keep_same by exact H2. auto.
      + intros i a b. destruct (mem_write E m Hm (proj1_sig i) a b) as [H1 H2].
        destruct (fits i (snd (e_writeCv E (proj1_sig i) a b))) eqn:Ef.
        * apply fits_spec in Ef. rewrite keep_in by exact Ef. auto.
        * rewrite keep_out by (rewrite <- (fits_spec i), Ef; discriminate). split; [apply u8_mem|reflexivity].
      + intros i a b k Hb. destruct (mem_writeBit E m Hm (proj1_sig i) a b k Hb) as [H1 H2].
        destruct (fits i (snd (e_writeCvBit E (proj1_sig i) a b k))) eqn:Ef.
        * apply fits_spec in Ef. rewrite keep_in by exact Ef. auto.
        * rewrite keep_out by (rewrite <- (fits_spec i), Ef; discriminate). split; reflexivity.
      + intros i e. rewrite keep_same by apply (mem_hook E m Hm). apply (mem_hook E m Hm).
      + intros i. rewrite keep_same by apply (mem_rand E m Hm). apply (mem_rand E m Hm).
      + intros i. rewrite keep_same by apply (mem_now E m Hm). apply (mem_now E m Hm).
      + exact (mem_sync E m Hm).
    - intros i a v [Ha Hs] Hv. cbn [restricted e_writeCv snd sensible] in *. unfold m'.
      pose proof Hk as (_ & Hst & _). specialize (Hst (proj1_sig i) a v Ha Hv).
      rewrite keep_in; [exact Hst|]. destruct (Z.eq_dec a 0) as [->|H0]; [rewrite Hst; auto|].
      rewrite (proj2 (mem_write E m Hm (proj1_sig i) a v)) by congruence. exact (proj2_sig i).
    - intros i a b k [Ha Hs] Hb. cbn [restricted e_writeCvBit snd sensible] in *. unfold m'.
      pose proof Hk as (_ & _ & Hst). specialize (Hst (proj1_sig i) a b k Ha Hb).
      rewrite keep_in; [exact Hst|]. destruct (Z.eq_dec a 0) as [->|H0].
      + rewrite Hst. pose proof (proj2_sig i) as Hi. pose proof (mem_byte E m Hm (proj1_sig i) 0) as Hby. cbn beta in Hi.
        apply set_bit_low; [unfold byte in Hby; lia|]. specialize (Hs eq_refl). lia.
      + rewrite (proj2 (mem_writeBit E m Hm (proj1_sig i) a b k Hb)) by congruence. exact (proj2_sig i).
  Qed.

  Lemma restricted_short : short_cv1 restricted.
  Proof.
    intros i. cbn [restricted e_readCv fst]. destruct (mem_read E m Hm (proj1_sig i) 0) as [H _]. unfold u8 in H. rewrite H.
    pose proof (proj2_sig i) as Hi. cbn beta in Hi. lia.
  Qed.

  Lemma later : forall i j, time (proj1_sig i) <= time j -> time' i <= time' (keep i j).
  Proof. intros i j H. unfold time', keep. destruct (Z_lt_dec (m j 0) 128); cbn [proj1_sig]; lia. Qed.

  Lemma restricted_clock : clock restricted time'.
  Proof.
    destruct HC as (H1 & H2 & H3 & H4 & H5 & H6 & H7 & H8 & H9).
    repeat split; intros; cbn [restricted e_readCv e_readCvByte e_readCvBit e_writeCv e_writeCvBit e_async e_hook e_rand e_now fst snd];
      try (apply later; auto; fail).
    - apply H1.
    - unfold time'. rewrite keep_same by apply (mem_now E m Hm). apply H1.
  Qed.

  Definition fine (e : event) : Prop := forall x, In x (access_of e) -> (is_writing x = true -> both x) /\ placed x.

  Lemma restricted_agrees : agree E restricted (fun i j => i = proj1_sig j) fine.
  Proof.
    constructor; cbn [restricted e_readCv e_readCvByte e_readCvBit e_writeCv e_writeCvBit e_hook e_rand e_now
        e_async e_async_readable e_async_writable e_high_current e_east_west fst snd]; try reflexivity.
    - intros i j a -> _. split; [reflexivity|]. rewrite keep_same; [reflexivity|apply (mem_read E m Hm)].
    - intros i j a b -> _. split; [reflexivity|]. rewrite keep_same; [reflexivity|apply (mem_readByte E m Hm)].
    - intros i j a b k -> Hf. split; [reflexivity|]. rewrite keep_same; [reflexivity|].
      destruct (Hf _ (or_introl eq_refl)) as [_ Hp]. apply (mem_readBit E m Hm). exact Hp.
    - intros i j a b -> Hf. destruct (Hf _ (or_introl eq_refl)) as [Hw Hv]. specialize (Hw eq_refl). rename Hw into Hb. cbn [placed] in Hv.
      assert (Hs : m (snd (e_writeCv E (proj1_sig j) a b)) 0 < 128).
      { destruct Hb as [Ha Hs]. cbn [sensible] in Hs. pose proof Hk as (_ & Hst & _). specialize (Hst (proj1_sig j) a b Ha Hv).
        destruct (Z.eq_dec a 0) as [->|H0]; [rewrite Hst; auto|].
        rewrite (proj2 (mem_write E m Hm (proj1_sig j) a b)) by congruence. exact (proj2_sig j). }
      rewrite (proj2 (fits_spec j _) Hs), keep_in by exact Hs. auto.
    - intros i j a b k -> Hf. destruct (Hf _ (or_introl eq_refl)) as [Hw Hp]. pose proof (Hw eq_refl) as Hb. cbn [placed] in Hp.
      assert (Hs : m (snd (e_writeCvBit E (proj1_sig j) a b k)) 0 < 128).
      { destruct Hb as [Ha Hs]. cbn [sensible] in Hs. pose proof Hk as (_ & _ & Hst). specialize (Hst (proj1_sig j) a b k Ha Hp).
        destruct (Z.eq_dec a 0) as [->|H0].
        - rewrite Hst. pose proof (proj2_sig j) as Hi. pose proof (mem_byte E m Hm (proj1_sig j) 0) as Hby. cbn beta in Hi.
          apply set_bit_low; [unfold byte in Hby; lia|]. specialize (Hs eq_refl). lia.
        - rewrite (proj2 (mem_writeBit E m Hm (proj1_sig j) a b k Hp)) by congruence. exact (proj2_sig j). }
      rewrite (proj2 (fits_spec j _) Hs), keep_in by exact Hs. auto.
    - destruct (mem_sync E m Hm) as [-> ->]. intros [H|H]; discriminate H.
    - intros i j e -> _. rewrite keep_same; [reflexivity|apply (mem_hook E m Hm)].
    - intros i j ->. split; [reflexivity|]. rewrite keep_same; [reflexivity|apply (mem_rand E m Hm)].
    - intros i j ->. split; [reflexivity|]. rewrite keep_same; [reflexivity|apply (mem_now E m Hm)].
  Qed.

  Lemma finished_ok : forall c h, history_ok c h -> (forall bs, In bs (queued h) -> packet_ok bs) ->
    forall p, In p (finished c (None :: started h) (length (ticks h))) -> packet_ok p.
  Proof.
    intros c h Hh Hq p Hp. destruct (finished_prefix c (None :: started h) (length (ticks h))) as (r & Hr).
    assert (Hin : In p (map bytes (None :: started h))) by (rewrite <- Hr; apply in_or_app; left; exact Hp).
    apply in_map_iff in Hin. destruct Hin as (q & <- & Hin). destruct q as [bs|]; [|exact idle_ok]. cbn [bytes].
    destruct Hin as [Hin|Hin]; [discriminate Hin|]. apply Hq. exact (started_queued c h bs Hh Hin).
  Qed.

  Lemma seen_fine : forall es, Forall (allowed both) (seen_in es) -> Forall seen_placed (seen_in es) -> Forall fine es.
  Proof.
    induction es as [|e es IH]; intros H1 H2; [constructor|]. unfold seen_in in *. cbn [flat_map] in *.
    apply Forall_app in H1, H2. destruct H1 as [H1 H1'], H2 as [H2 H2']. constructor; [|auto].
    intros x Hx. assert (Hin : In (Access x) (seen_of e)).
    { destruct e; cbn [access_of] in Hx; try contradiction; cbn [seen_of access_of]; apply in_map; exact Hx. }
    rewrite Forall_forall in H1, H2. split; [exact (H1 _ Hin)|exact (H2 _ Hin)].
  Qed.

  (** A decoder that leaves CV1 short *)
  Lemma short_obeyed : forall c h i dos, 0 <= time i -> m i 0 < 128 -> config_ok c -> history_ok c h ->
    (forall bs, In bs (queued h) -> packet_ok bs /\ complete bs) ->
    filter is_receive dos = map OReceive (map fst (ticks h)) -> ~ In ODisable dos -> executes_every 76 dos -> on_time dos ->
    (forall done left, finished c (None :: started h) (length (ticks h)) = done ++ left -> (length left <= 1)%nat ->
       Forall (allowed both) (snd (obey_all (e_east_west E) done (new_view (m i))))) ->
    exists s es, run E (OInit :: dos) (st0 i) = Ok (tt, s, es) /\ logons dos listener0 = [] /\ Forall fine es /\
      finished c (None :: started h) (length (ticks h)) = SpecRx.taken dos listener0 ++ r_deque (rxs s) /\
      (length (r_deque (rxs s)) <= 1)%nat.
  Proof.
    intros c h i dos Hi H1 Hc Hh Hq Hdos Hnd Hex Hon Hal0.
    set (i' := exist (fun i => m i 0 < 128) i H1 : short).
    destruct (known_obeyed restricted time' restricted_short restricted_clock c h i' dos Hi Hc Hh Hq Hdos Hnd Hex Hon)
      as (t & es & Hrun & Hlo & Hfin & Hle).
    pose proof (Hal0 _ _ Hfin Hle) as Hal.
    pose proof (layout restricted m' both restricted_keeps dos i' t es Hrun Hlo) as HL. cbv zeta in HL.
    change (e_east_west restricted) with (e_east_west E) in HL. change (m' i') with (m i) in HL.
    destruct (HL Hal) as (Hseen & _).
    assert (Hfine : Forall fine es).
    { apply seen_fine; rewrite Hseen; [exact Hal|]. apply obey_all_placed. apply Forall_forall. intros p Hp.
      assert (Hok : packet_ok p).
      { apply (finished_ok c h Hh); [intros bs Hb; apply (Hq bs Hb)|]. rewrite Hfin. apply in_or_app. left. exact Hp. }
      apply Hok. }
    pose proof (same_run E restricted _ fine restricted_agrees (OInit :: dos) (st0 i) (st0 i')) as Hs.
    rewrite Hrun in Hs. destruct Hs as (s & Hrun' & Hal2 & _); [repeat split|exact Hfine|].
    exists s, es. rewrite Hal2. auto.
  Qed.

  Theorem short_orders_done : forall c os pss ks n i, 0 <= time i -> m i 0 < 128 -> config_ok c -> Forall order_ok os ->
    Forall2 packets_for os pss -> length ks = length os -> Forall (fun k => (782 < k)%nat) ks -> (782 < n)%nat ->
    Forall (allowed both) (snd (carry_out_all os (m i, None))) ->
    exists xs tx, tx_run (TInit c :: flat_map calls (combine pss ks) ++ repeat TTransmit n) (tx_init_state 4)
                  = Ok ((None, []) :: xs, tx) /\
    forall dos, filter is_receive dos = map OReceive (map fst (intervals xs)) -> ~ In ODisable dos ->
      executes_every 76 dos -> on_time dos ->
      exists s es, run E (OInit :: dos) (st0 i) = Ok (tt, s, es) /\
        seen_in es = snd (carry_out_all os (m i, None)) /\
        forall a, m (Rx.app s) a = fst (fst (carry_out_all os (m i, None))) a.
  Proof.
    intros c os pss ks n i Hi H1 Hc Hos Hp Hlen Hks Hn Hal.
    destruct (orders_tracked c os pss ks n Hc Hos Hp Hlen Hks Hn) as (h & xs & tx & Htx & Hxs & Hh & Hpk & Hall).
    exists xs, tx. split; [exact Htx|]. intros dos Hdos Hnd Hex Hon. rewrite Hxs in Hdos.
    assert (Ht : tracks (m i, None) (new_view (m i))) by (split; [|split]; reflexivity).
    destruct (orders_obeyed (e_east_west E) os pss _ _ Hos Hp Ht) as (Hcalm & _ & Hsnd).
    destruct (short_obeyed c h i dos Hi H1 Hc Hh Hpk Hdos Hnd Hex Hon) as (s & es & Hrun & Hlo & _ & Hfin & Hle).
    { intros done left Hf Hl. specialize (Hall done left Hf Hl).
      rewrite without_idle by (reflexivity || (rewrite Hall; exact Hcalm)). rewrite Hall, Hsnd. exact Hal. }
    exists s, es. split; [exact Hrun|].
    apply (orders_seen E m able Hk dos i s es os pss Hrun Hlo Hos Hp (Hall _ _ Hfin Hle)).
    eapply Forall_impl; [|exact Hal]. intros [e|x] H; [exact Logic.I|]. intros Hw. apply (H Hw).
  Qed.
End Short.
