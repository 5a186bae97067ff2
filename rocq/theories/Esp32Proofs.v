(** The example for the ESP32 and a decoder at its track *)
From Verif Require Import Prelude Address ZBits SpecCodec SpecTx Packets TxProofs Tx RxState Rx CodecProofs CodecProofs2 RxLogic SpecRx
  RxBitProofs RxBitProofs2 RxBitProofs3 RxBitProofs4 RxBitProofs5 SpecExec SpecConf SpecCv SpecLogon SpecBidi SpecSafe SafeProofs2
  SpecLayout LayoutProofs4 LayoutProofs5 LayoutProofs6 SpecLayout2 LayoutProofs7 LayoutProofs8
  SpecStation StationProofs AudibleProofs Rmt SpecRmt RmtProofs2 RmtLife SpecRmtTrack RmtTrackProofs RmtTrackProofs2 Esp32.

Lemma esp32_ranges : within_ranges esp32_config.
Proof. unfold within_ranges. cbn. lia. Qed.

Lemma esp32_supplied : forall turns first, Forall (fun x : list nat * Z => (64 <= hd 0 (fst x))%nat) turns ->
  all_supplied esp32_config first (esp32_loop turns).
Proof.
  intros turns first H. revert first. induction H as [|[ms g] turns Hx H IH]; intros first; [exact Logic.I|].
  cbn [esp32_loop map all_supplied fst snd]. split; [|apply IH]. cbn [fst] in Hx. clear - Hx.
  destruct ms as [|n ms]; cbn [hd] in Hx; [lia|].
  assert (L : (length (lead esp32_config first) = if first then 18 else 22)%nat) by (destruct first; reflexivity).
  unfold supplied. cbn [j_bytes j_memory]. split.
  - intros j k Hk. cbn [length make_idle_packet] in Hk. unfold SpecRmt.taken. destruct j as [|j]; [cbn [firstn fold_right]; destruct first; lia|].
    cbn [firstn fold_right]. destruct first; lia.
  - unfold stream. rewrite !app_length, L. unfold SpecRmt.taken. cbn [length firstn fold_right make_idle_packet flat_map map].
    cbn. destruct first; cbn; lia.
Qed.

Lemma esp32_closes : forall turns, Forall (fun x : list nat * Z => 0 <= snd x < 56) turns -> Forall (closes esp32_config) (esp32_loop turns).
Proof.
  intros turns H. unfold esp32_loop. apply Forall_map. eapply Forall_impl; [|exact H]. intros [ms g] Hg. cbn [fst snd] in *.
  unfold closes, closing. cbn [esp32_config rc_endbit rc_bidibit rc_zimo0 j_gap]. change (58 - 24 =? 0) with false. cbn iota.
  unfold half_bit.
  destruct (Z.ltb_spec (58 - 24 + g) 52); cbn [orb]; [right; split; [reflexivity|left; discriminate]|].
  destruct (Z.ltb_spec 10000 (58 - 24 + g)); [lia|].
  destruct (Z.leb_spec (58 - 24 + g) 64); [left; reflexivity|].
  destruct (Z.ltb_spec (58 - 24 + g) 90); [right; split; [reflexivity|left; discriminate]|lia].
Qed.

Lemma map_idle : forall turns, map j_bytes (esp32_loop turns) = repeat make_idle_packet (length turns).
Proof. induction turns as [|x turns IH]; [reflexivity|]. cbn [esp32_loop map length repeat]. f_equal. exact IH. Qed.

Lemma removelast_repeat : forall (A : Type) (x : A) n, removelast (repeat x n) = repeat x (n - 1).
Proof.
  induction n as [|n IH]; [reflexivity|]. destruct n as [|n]; [reflexivity|].
  change (repeat x (S (S n))) with (x :: x :: repeat x n). cbn [removelast]. cbn [repeat removelast] in IH. rewrite IH.
  cbn [Nat.sub]. rewrite Nat.sub_0_r. reflexivity.
Qed.

Lemma esp32_complete : forall turns, exists k, complete_packets esp32_config (esp32_loop turns) = repeat make_idle_packet k /\
  (length turns - 1 <= k <= length turns)%nat.
Proof.
  intros turns. unfold complete_packets. rewrite map_idle, removelast_repeat.
  destruct (rev (esp32_loop turns)) as [|j r] eqn:E.
  - apply (f_equal (@length _)) in E. unfold esp32_loop in E. rewrite rev_length, map_length in E. cbn in E. exists 0%nat.
    split; [reflexivity|lia].
  - destruct (closing esp32_config j) as [[|]|]; eexists; (split; [reflexivity|lia]).
Qed.

Lemma obey_idle : forall ew k v, v_service v = false -> obey_all ew (repeat make_idle_packet k) v = (v, []).
Proof.
  intros ew k v Hv. induction k as [|k IH]; [reflexivity|]. cbn [repeat obey_all]. unfold obey at 1. rewrite Hv.
  change (operations ew make_idle_packet v) with (v, @nil seen). cbv beta iota. rewrite IH. reflexivity.
Qed.

Lemma repeat_split : forall (A : Type) (x : A) k a b, repeat x k = a ++ b -> a = repeat x (length a).
Proof.
  intros A x k a. revert k. induction a as [|y a IH]; intros k b H; [reflexivity|]. destruct k as [|k]; [discriminate|].
  cbn [repeat List.app length] in *. injection H as <- H. f_equal. exact (IH k b H).
Qed.

Section Esp32.
  Context {I : Type} (E : Env I) (m : I -> Z -> Z) (able : access -> Prop) (time : I -> Z)
    (Hk : keeps_cvs able E m) (HE : short_cv1 E) (HC : clock E time).

  Theorem esp32_idles : forall turns i, 0 <= time i ->
    Forall (fun x => (64 <= hd 0 (fst x))%nat /\ 0 <= snd x < 56) turns ->
    exists ts m', channel esp32_config rmt_reset (esp32_loop turns) = Some (ts, m') /\
    forall dos, filter is_receive dos = map OReceive ts -> ~ In ODisable dos -> never_full dos listener0 -> on_time dos ->
      exists s es k, run E (OInit :: dos) (st0 i) = Ok (tt, s, es) /\
        heard dos listener0 = repeat [0xFF; 0; 0xFF] k /\ (length turns - 1 <= k <= length turns)%nat /\
        seen_in es = [] /\ forall a, m (Rx.app s) a = m i a.
  Proof.
    intros turns i Hi Ht.
    assert (H1 : Forall (fun x : list nat * Z => (64 <= hd 0 (fst x))%nat) turns) by (eapply Forall_impl; [|exact Ht]; intros x H; apply H).
    assert (H2 : Forall (fun x : list nat * Z => 0 <= snd x < 56) turns) by (eapply Forall_impl; [|exact Ht]; intros x H; apply H).
    assert (Hid : packet_ok make_idle_packet /\ complete make_idle_packet) by (split; [exact idle_ok|exact (generated_complete _ gen_idle)]).
    assert (H3 : Forall (fun j => packet_ok (j_bytes j) /\ complete (j_bytes j)) (esp32_loop turns)).
    { unfold esp32_loop. apply Forall_map. apply Forall_forall. intros x _. exact Hid. }
    destruct (rmt_obeyed E m able time Hk HE HC esp32_config (esp32_loop turns) i Hi esp32_ranges H3
      (esp32_closes turns H2) (esp32_supplied turns true H1)) as (ts & m' & Hch & H).
    exists ts, m'. split; [exact Hch|]. intros dos Hdos Hnd Hnf Hon.
    destruct (H dos Hdos Hnd Hnf Hon) as (s & es & Hrun & Hq & Hob).
    destruct (esp32_complete turns) as (k & Hc & Hl). exists s, es, k. split; [exact Hrun|].
    rewrite Hc in Hq. split; [|split; [exact Hl|]].
    - destruct (fifo E i (OInit :: dos) s es Hrun) as [F _] || pose proof (fifo E i (OInit :: dos) s es Hrun) as F.
      change (heard (OInit :: dos) listener0) with (heard dos listener0) in F.
      change (SpecRx.taken (OInit :: dos) listener0) with (SpecRx.taken dos listener0) in F. rewrite F, <- Hq. reflexivity.
    - apply repeat_split in Hq. rewrite Hq in Hob. rewrite obey_idle in Hob by reflexivity. cbn [fst snd] in Hob.
      destruct (Hob (Forall_nil _)) as (A1 & A2 & _). split; [exact A1|]. intros a. rewrite A2. reflexivity.
  Qed.
End Esp32.
