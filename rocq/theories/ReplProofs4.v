(** What a session of the example examples/repl does *)
From Verif Require Import Prelude Address Packets ZBits SpecCodec SpecTx TxProofs Tx CodecProofs CodecProofs2 RxState Rx RxLogic SpecRx
  RxBitProofs RxBitProofs2 RxBitProofs3 RxBitProofs4 RxBitProofs5 PreemptProofs2 SpecExec SpecConf SpecCv
  SpecLayout LayoutProofs LayoutProofs2 LayoutProofs3 LayoutProofs4 LayoutProofs5 LayoutProofs6 SpecLayout2 LayoutProofs7
  LayoutProofs8 Repl SpecRepl ReplProofs ReplProofs2 ReplProofs3.

Lemma no_packets : forall os pss, Forall2 packets_for os pss -> concat pss = [] -> os = [].
Proof.
  intros os pss H Hc. destruct H as [|o ps os pss (p & _ & ->) H]; [reflexivity|].
  destruct (is_write (snd o)); discriminate.
Qed.

Lemma same_prefix : forall (A : Type) (a b c d : list A), length a = length c -> a ++ b = c ++ d -> a = c.
Proof.
  induction a as [|x a IH]; intros b [|y c] d Hl H; cbn [length List.app] in *; try discriminate; [reflexivity|].
  injection H as -> H. f_equal. apply (IH b c d); [lia|exact H].
Qed.

(** Packets executed are the packets accepted by the station, in order *)
Lemma session_delivered : forall os p out h popped pss, every_command documented os -> every_command short_address os ->
  session os p out h popped pss ->
  (exists rest, filter not_idle (o_done out) ++ rest = queued h) /\
  match p_decoder p with
  | Some s => exists dos, run repl_env (OInit :: dos) (st0 repl_cvs) = Ok (tt, s, o_calls out) /\
                logons dos listener0 = [] /\ SpecRx.taken dos listener0 = o_done out
  | None => o_calls out = [] /\ o_done out = []
  end.
Proof.
  intros os p out h popped pss Hd Hs [(a & ws & HR & HH) Had Hty Hfi Hlo Hde].
  assert (H3 : 0 <= 3 <= 127) by lia. destruct (typed_ok os 3 Hd Hs H3) as [Hok _].
  assert (Hall := all_packets_ok _ _ Hok Hty).
  assert (Hpk : Forall packet_ok (queued h)).
  { apply Forall_forall. intros q Hq. rewrite Forall_forall in Hall. apply Hall. rewrite Hfi. apply in_or_app. left.
    exact (merged_In_left _ _ _ _ q Hlo Hq). }
  assert (Hni : filter not_idle (queued h) = queued h).
  { apply filter_all. apply Forall_forall. intros q Hq.
    assert (Hf := orders_not_idle _ _ Hok Hty). assert (Hin : In q (concat pss)).
    { rewrite Hfi. apply in_or_app. left. exact (merged_In_left _ _ _ _ q Hlo Hq). }
    rewrite <- Hf in Hin. apply filter_In in Hin. apply Hin. }
  unfold decoding in Hde. destruct (p_decoder p) as [s|].
  - destruct Hde as (dos & _ & D1 & D2 & D3 & D4 & D5).
    assert (Hnf1 : never_full (OInit :: dos) listener0).
    { intros [|x os1] os2 He; [cbn; lia|]. cbn [List.app] in He. inversion He; subst. exact (D4 os1 os2 eq_refl). }
    assert (Hnd1 : ~ In ODisable (OInit :: dos)) by (intros [H|H]; [discriminate|exact (D3 H)]).
    destruct (known_history repl_env repl_config h repl_cvs (OInit :: dos) s _ repl_config_ok (HI_ok _ _ _ _ HH) Hpk D2 Hnd1 Hnf1 D1)
      as [K1 K2].
    split; [|exists dos; auto].
    destruct (waiting_all repl_config h (HI_ok _ _ _ _ HH)) as (ws' & Hws).
    destruct (finished_prefix repl_config (None :: started h) (length (ticks h))) as (r & Hr).
    rewrite <- K1 in Hr. cbn [map] in Hr.
    assert (Hfil : filter not_idle (SpecRx.taken (OInit :: dos) listener0 ++ r_deque (rxs s) ++ r) = filter not_idle (sent h)).
    { rewrite app_assoc, Hr. cbn [filter]. rewrite started_sent. reflexivity. }
    rewrite <- Hni, Hws, filter_app, <- Hfil. rewrite filter_app. cbn [SpecRx.taken List.app listen]. rewrite D5.
    eexists. rewrite <- app_assoc. reflexivity.
  - destruct Hde as (_ & H1 & H2 & _). split; [|auto]. rewrite H2. eexists. reflexivity.
Qed.

Theorem repl_delivers : forall os p out, every_command documented os -> every_command short_address os ->
  repl_run os repl0 = Done (p, out) -> keeps_up os ->
  exists pss accepted rest popped, Forall2 packets_for (orders_typed 3 os) pss /\
    concat pss = popped ++ p_fifo p /\ merged accepted (o_lost out) popped /\
    accepted = filter not_idle (o_done out) ++ rest.
Proof.
  intros os p out Hd Hs H Hk. destruct (session_run os p out Hd Hs H Hk) as (h & popped & pss & HS).
  destruct (session_delivered os p out h popped pss Hd Hs HS) as [(rest & Hr) _].
  destruct HS as [_ _ Hty Hfi Hlo _]. exists pss, (queued h), rest, popped. auto.
Qed.

Theorem repl_obeys : forall os p out, every_command documented os -> every_command short_address os ->
  repl_run os repl0 = Done (p, out) -> keeps_up os -> o_lost out = [] ->
  forall os1 os2 pss1, orders_typed 3 os = os1 ++ os2 -> Forall2 packets_for os1 pss1 ->
  length (filter not_idle (o_done out)) = length (concat pss1) ->
  let x := carry_out_all os1 (cvs_of repl_cvs, None) in
  seen_in (o_calls out) = snd x /\ (forall a, cvs_in p a = fst (fst x) a).
Proof.
  intros os p out Hd Hs H Hk Hlost os1 os2 pss1 Ho Hp1 Hlen. cbv zeta.
  destruct (session_run os p out Hd Hs H Hk) as (h & popped & pss & HS).
  destruct (session_delivered os p out h popped pss Hd Hs HS) as [(rest & Hr) HD].
  destruct HS as [_ _ Hty Hfi Hlo _]. rewrite Hlost in Hlo. apply merged_none in Hlo. subst popped.
  assert (H3 : 0 <= 3 <= 127) by lia. destruct (typed_ok os 3 Hd Hs H3) as [Hok _].
  rewrite Ho in Hok, Hty. apply Forall_app in Hok. destruct Hok as [Hok1 _].
  assert (Hpre : exists pss2, concat pss = concat pss1 ++ concat pss2).
  { apply Forall2_app_inv_l in Hty. destruct Hty as (q1 & q2 & Hq1 & _ & ->). exists q2. rewrite concat_app. f_equal.
    clear - Hp1 Hq1 Hok1. revert q1 Hq1. induction Hp1 as [|o ps os1 pss1 Hp Hp1 IH]; intros q1 Hq1; inversion Hq1 as [|? qs ? q1' Hq Hq1']; subst; [reflexivity|].
    inversion Hok1; subst. cbn [concat]. f_equal; [|apply IH; assumption].
    rewrite (packets_of_order o ps), (packets_of_order o qs) by assumption. reflexivity. }
  destruct Hpre as (pss2 & Hpre).
  assert (Heq : filter not_idle (o_done out) = concat pss1).
  { assert (Hall : filter not_idle (o_done out) ++ rest ++ p_fifo p = concat pss1 ++ concat pss2) by (rewrite <- Hpre, Hfi, <- Hr, <- app_assoc; reflexivity).
    exact (same_prefix _ _ _ _ _ Hlen Hall). }
  unfold cvs_in. destruct (p_decoder p) as [s|].
  - destruct HD as (dos & D1 & D2 & D3).
    apply (orders_seen repl_env cvs_of all_cvs repl_memory dos repl_cvs s (o_calls out) os1 pss1 D1 D2 Hok1 Hp1); [|apply orders_in_range; exact Hok1].
    rewrite D3. exact Heq.
  - destruct HD as [D1 D2]. rewrite D2 in Heq. cbn [filter] in Heq. symmetry in Heq.
    apply (no_packets _ _ Hp1) in Heq. subst os1. rewrite D1. cbn. auto.
Qed.
