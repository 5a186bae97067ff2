(** Sessions of the example examples/repl that cannot fail *)
From Verif Require Import Prelude Address Packets ZBits SpecCodec SpecTx TxProofs Tx CodecProofs CodecProofs2 RxState Rx RxLogic SpecRx
  RxBitProofs RxBitProofs2 RxBitProofs3 RxBitProofs4 RxBitProofs5 PreemptProofs2 SpecExec SpecConf SpecCv SpecBidi SpecSafe SafeProofs2
  SpecLayout LayoutProofs LayoutProofs2 LayoutProofs3 LayoutProofs4 LayoutProofs5 LayoutProofs6 SpecLayout2 LayoutProofs7
  LayoutProofs8 Repl SpecRepl ReplProofs ReplProofs2 ReplProofs3 ReplProofs4 SpecStation StationProofs StationProofs2 StationProofs3
  StationProofs4 SpecAlike AlikeProofs AlikeProofs2 ReplWitness.
Local Ltac Zify.zify_post_hook ::= Z.div_mod_to_equations.

(** ** What the packets of an order do *)

Definition mild (x : access) : Prop := all_cvs x /\ sensible x.
Definition gentle (o : order) : Prop :=
  match snd o with CWrite a b => a = 0 -> b < 128 | CWriteBit a _ k => a = 0 -> k < 7 | _ => True end.
Definition harmless (x : seen) : Prop := match x with Access x => mild x | Told _ => True end.

Section Gentle.
  Variable ew : bool.

  Lemma harmless_told : forall es, Forall harmless (map Told es).
  Proof. induction es; constructor; [exact Logic.I|assumption]. Qed.
  Lemma perform_harmless : forall x v, mild x -> Forall harmless (snd (perform x v)).
  Proof.
    intros x v H. unfold perform. destruct (permitted _ x); [|constructor]. cbn [snd]. constructor; [exact H|].
    destruct (v_service v && _); repeat constructor.
  Qed.
  Lemma perform_all_harmless : forall xs v, Forall mild xs -> Forall harmless (snd (perform_all xs v)).
  Proof.
    induction xs as [|x xs IH]; intros v H; [constructor|]. inversion H; subst. cbn [perform_all].
    pose proof (perform_harmless x v) as Hp. destruct (perform x v) as [v1 a]. specialize (IH v1). destruct (perform_all xs v1) as [v2 b].
    cbn [snd] in *. apply Forall_app. auto.
  Qed.

  Lemma gentle_obey : forall o v, order_ok o -> gentle o -> v_service v = false -> Forall harmless (snd (obey ew (packet_of o) v)).
  Proof.
    intros [n d] v Ho Hg Hv. unfold packet_of. cbn [fst snd]. destruct (on_cvs d) eqn:Ed.
    - rewrite obey_cv by assumption. destruct (answers (v_cvs v) n && _); [|constructor]. cbv zeta.
      apply perform_all_harmless. destruct Ho as [_ Hd]. unfold gentle in Hg. cbn [snd] in *.
      assert (Hall : Forall (fun x => mild x /\ (forall a v, x = Store a v -> mild (Check a v))) (asked d)).
      { destruct d; try discriminate; cbn [asked cmd_ok] in *; (apply Forall_cons; [|apply Forall_nil]); unfold mild, all_cvs; cbn [target sensible].
        - split; [split; [lia|exact Logic.I]|intros ? ? Hx; discriminate Hx].
        - split; [split; [lia|exact Hg]|]. intros ? ? Hx. injection Hx as <- <-. split; [lia|exact Logic.I].
        - split; [split; [lia|exact Logic.I]|intros ? ? Hx; discriminate Hx].
        - split; [split; [lia|exact Hg]|intros ? ? Hx; discriminate Hx]. }
      clear - Hall. induction Hall as [|x xs [Hx Hx2] H IH]; [constructor|]. cbn [flat_map]. apply Forall_app. split; [|exact IH].
      destruct x; cbn [due]; destruct (v_times _) as [|[|[|]]]; repeat (apply Forall_cons; [first [exact Hx | apply (Hx2 _ _ eq_refl)]|]); apply Forall_nil.
    - rewrite obey_driving by assumption. cbn [snd]. destruct (answers (v_cvs v) n); [apply harmless_told|constructor].
  Qed.

  Definition known_packet (p : list Z) : Prop := not_idle p = false \/ exists o, order_ok o /\ gentle o /\ p = packet_of o.

  Lemma known_obey : forall ps v, Forall known_packet ps -> v_service v = false -> Forall harmless (snd (obey_all ew ps v)).
  Proof.
    induction ps as [|p ps IH]; intros v H Hv; [constructor|]. inversion H as [|? ? Hp Hps]; subst. cbn [obey_all].
    assert (Hone : Forall harmless (snd (obey ew p v)) /\ v_service (fst (obey ew p v)) = false).
    { destruct Hp as [Hp|(o & Ho & Hg & ->)].
      - rewrite (idle_obey ew p v Hv Hp). split; [constructor|exact Hv].
      - split; [apply gentle_obey; assumption|apply calm_order; assumption]. }
    destruct (obey ew p v) as [v1 a]. cbn [fst snd] in Hone. destruct Hone as [H1 H2]. specialize (IH v1 Hps H2).
    destruct (obey_all ew ps v1) as [v2 b]. cbn [snd] in *. apply Forall_app. auto.
  Qed.
End Gentle.

Lemma typed_gentle : forall os n, every_command documented os -> every_command leaves_cv1 os -> Forall gentle (orders_typed n os).
Proof.
  induction os as [|o os IH]; intros n Hd Hs; [constructor|].
  assert (Hd' : every_command documented os) by (intros c Hc; apply Hd; right; exact Hc).
  assert (Hs' : every_command leaves_cv1 os) by (intros c Hc; apply Hs; right; exact Hc).
  cbn [orders_typed]. destruct o as [| | |c]; try (apply IH; assumption). apply Forall_app. split; [|apply IH; assumption].
  specialize (Hs c (or_introl eq_refl)). specialize (Hd c (or_introl eq_refl)).
  destruct c; cbn [meant leaves_cv1] in *; repeat constructor; unfold gentle; cbn [snd]; try exact Logic.I; intros; lia.
Qed.

(** ** The decoder task follows *)

Lemma split_beats : forall os x y, flat_map beat os = x ++ y -> exists a b, os = a ++ b /\ flat_map beat a = x /\ flat_map beat b = y.
Proof.
  induction os as [|o os IH]; intros x y H.
  - cbn [flat_map] in H. symmetry in H. apply app_eq_nil in H. destruct H as [-> ->]. exists [], []. auto.
  - destruct x as [|t x]; [exists [], (o :: os); auto|]. cbn [flat_map] in H.
    assert (Hc : beat o = [] \/ exists t', beat o = [t']) by (destruct o; cbn; eauto).
    destruct Hc as [Hc|(t' & Hc)]; rewrite Hc in H; cbn [List.app] in H.
    + destruct (IH (t :: x) y H) as (a & b & -> & H1 & H2). exists (o :: a), b. cbn [flat_map]. rewrite Hc. auto.
    + injection H as -> H. destruct (IH x y H) as (a & b & -> & H1 & H2). exists (o :: a), b. cbn [flat_map]. rewrite Hc, H1. auto.
Qed.

Lemma follows_every : forall os dos, follows os dos -> attentive os -> executes_every 76 dos.
Proof.
  intros os dos (Hp & pre & post & -> & Hm) Hat a b c -> Hn. rewrite !map_app in Hm. symmetry in Hm.
  apply split_beats in Hm. destruct Hm as (p1 & p2 & -> & H1 & H2). apply split_beats in H2. destruct H2 as (p3 & p4 & -> & H3 & H4).
  assert (Hin : In RExecute p3).
  { apply (Hat (pre ++ RStart :: p1) p3 p4); [rewrite <- app_assoc; reflexivity|].
    assert (Hl : length (filter is_receive b) = loops p3).
    { assert (Hb : length (filter is_receive b) = length (filter (fun x : bool => x) (map is_receive b))).
      { clear. induction b as [|o b IH]; [reflexivity|]. cbn [filter map]. destruct (is_receive o); cbn [length]; lia. }
      rewrite Hb, <- H3. unfold loops. clear. induction p3 as [|o p IH]; [reflexivity|]. cbn [flat_map filter].
      rewrite filter_app, app_length, IH. destruct o; reflexivity. }
    lia. }
  assert (Hf : In false (map is_receive b)) by (rewrite <- H3; apply in_flat_map; exists RExecute; split; [exact Hin|left; reflexivity]).
  apply in_map_iff in Hf. destruct Hf as (o & Ho & Hob). rewrite !Forall_app in Hp. destruct Hp as (_ & Hp & _).
  rewrite Forall_forall in Hp. destruct (Hp o Hob) as [->|(t & ->)]; [exact Hob|discriminate Ho].
Qed.

Lemma follows_on_time : forall os dos, follows os dos -> on_time dos.
Proof.
  intros os dos (Hp & _) a o b ->. rewrite Forall_app in Hp. destruct Hp as [_ Hp]. apply Forall_inv in Hp.
  destruct Hp as [->|(t & ->)]; exact Logic.I.
Qed.
Lemma follows_enabled : forall os dos, follows os dos -> ~ In ODisable dos.
Proof. intros os dos (Hp & _) Hin. rewrite Forall_forall in Hp. destruct (Hp _ Hin) as [H|(t & H)]; discriminate H. Qed.

Lemma repl_clock : clock repl_env (fun _ => 0).
Proof. repeat split; intros; cbn; lia. Qed.

(** The decoder of a session *)
Lemma decoder_total : forall os dos h, every_command documented os -> every_command short_address os -> every_command leaves_cv1 os ->
  attentive os -> follows os dos -> history_ok repl_config h ->
  (forall bs, In bs (queued h) -> exists o, In o (orders_typed 3 os) /\ bs = packet_of o) ->
  filter is_receive dos = map OReceive (map fst (ticks h)) ->
  exists s es, run repl_env (OInit :: dos) (st0 repl_cvs) = Ok (tt, s, es) /\ existsb outside es = false /\
    finished repl_config (None :: started h) (length (ticks h)) = SpecRx.taken dos listener0 ++ r_deque (rxs s) /\
    (length (r_deque (rxs s)) <= 1)%nat.
Proof.
  intros os dos h Hd Hs Hl Hat Hf Hh Hq Hdos.
  assert (H3 : 0 <= 3 <= 127) by lia. destruct (typed_ok os 3 Hd Hs H3) as [Hok _]. clear H3.
  pose proof (typed_gentle os 3 Hd Hl) as Hg. rewrite Forall_forall in Hok, Hg.
  assert (Hpk : forall bs, In bs (queued h) -> packet_ok bs /\ complete bs).
  { intros bs Hb. destruct (Hq bs Hb) as (o & Ho & ->). specialize (Hok o Ho).
    destruct o as [n d]. pose proof (generate_frame n d (proj1 Hok) (proj2 Hok)) as Hgen.
    assert (Hp : packets_for (n, d) (repeat (packet_of (n, d)) (if is_write d then 2 else 1))) by (exists (packet_of (n, d)); split; [exact Hgen|reflexivity]).
    pose proof (packets_for_ok _ _ Hok Hp) as H1. pose proof (order_complete _ _ Hok Hp) as H2.
    destruct (is_write d); apply Forall_inv in H1, H2; auto. }
  assert (Hkn : forall done left, finished repl_config (None :: started h) (length (ticks h)) = done ++ left -> Forall known_packet done).
  { intros done left Hfin. apply Forall_forall. intros p Hp.
    destruct (finished_prefix repl_config (None :: started h) (length (ticks h))) as (r & Hr).
    assert (Hin : In p (map bytes (None :: started h))).
    { rewrite <- Hr, Hfin. apply in_or_app. left. apply in_or_app. left. exact Hp. }
    apply in_map_iff in Hin. destruct Hin as (q & <- & Hin). destruct q as [bs|]; [|left; reflexivity]. cbn [bytes].
    destruct Hin as [Hin|Hin]; [discriminate Hin|]. right. destruct (Hq bs (started_queued _ h bs Hh Hin)) as (o & Ho & ->).
    exists o. auto. }
  assert (Hsnd : forall done left, finished repl_config (None :: started h) (length (ticks h)) = done ++ left ->
    Forall harmless (snd (obey_all (e_east_west repl_env) done (new_view (cvs_of repl_cvs))))).
  { intros done left Hfin. apply known_obey; [exact (Hkn done left Hfin)|reflexivity]. }
  destruct (short_obeyed repl_env cvs_of all_cvs (fun _ => 0) repl_memory repl_clock repl_config h repl_cvs dos ltac:(lia) ltac:(reflexivity)
    repl_config_ok Hh Hpk Hdos (follows_enabled _ _ Hf) (follows_every _ _ Hf Hat) (follows_on_time _ _ Hf)) as (s & es & Hrun & Hlo & _ & Hfin & Hle).
  { intros done left Hfin _. eapply Forall_impl; [|exact (Hsnd done left Hfin)]. intros [e|x] H; [exact Logic.I|intros _; exact H]. }
  exists s, es. split; [exact Hrun|]. split; [|auto].
  pose proof (layout repl_env cvs_of all_cvs repl_memory dos repl_cvs s es Hrun Hlo) as HL. cbv zeta in HL.
  specialize (Hsnd _ _ Hfin). destruct HL as (Hseen & _).
  { eapply Forall_impl; [|exact Hsnd]. intros [e|x] H; [exact Logic.I|intros _; apply H]. }
  rewrite <- Hseen in Hsnd. clear - Hsnd. induction es as [|e es IH]; [reflexivity|].
  unfold seen_in in *. cbn [flat_map] in Hsnd. apply Forall_app in Hsnd. destruct Hsnd as [H1 H2]. cbn [existsb].
  rewrite (IH H2), orb_false_r.
  destruct e; try reflexivity; cbn [seen_of access_of map] in H1; apply Forall_inv in H1; destruct H1 as [H1 _];
    cbn [outside]; apply negb_false_iff, in_array_spec; exact H1.
Qed.
