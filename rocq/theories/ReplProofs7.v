(** A user who waits loses nothing *)
From Verif Require Import Prelude Address Packets ZBits SpecCodec SpecTx TxProofs Tx CodecProofs CodecProofs2 RxState Rx RxLogic SpecRx
  RxBitProofs RxBitProofs2 RxBitProofs3 RxBitProofs4 RxBitProofs5 PreemptProofs2 SpecExec SpecConf SpecCv SpecBidi SpecSafe SafeProofs2
  SpecLayout LayoutProofs LayoutProofs2 LayoutProofs3 LayoutProofs4 LayoutProofs5 LayoutProofs6 SpecLayout2 LayoutProofs7
  LayoutProofs8 Repl SpecRepl ReplProofs ReplProofs2 ReplProofs3 ReplProofs4 SpecStation StationProofs StationProofs2 StationProofs3
  StationProofs4 SpecAlike AlikeProofs AlikeProofs2 ReplProofs5 ReplProofs6 ReplWitness.

Definition patient (os : list rstep) : Prop := forall a c1 b c2 d, os = a ++ RType c1 :: b ++ RType c2 :: d ->
  sends c1 = true -> sends c2 = true -> (785 <= loops b)%nat.

Lemma patient_app : forall a b, patient (a ++ b) -> patient a.
Proof. intros a b H x c1 y c2 z ->. apply (H x c1 y c2 (z ++ b)). rewrite <- app_assoc. cbn [List.app]. rewrite <- app_assoc. reflexivity. Qed.

Lemma loops_snoc : forall b o, loops (b ++ [o]) = (loops b + (if is_loop o then 1 else 0))%nat.
Proof. intros b o. unfold loops. rewrite filter_app, app_length. cbn [filter]. destruct (is_loop o); reflexivity. Qed.

Lemma two_packets : forall a c ps, repl_packets a c = Ok ps -> (length ps <= 2)%nat /\ (sends c = false -> ps = []).
Proof.
  intros a c ps H. destruct c; cbn [repl_packets sends] in *;
    try (match type of H with rbind ?m _ = _ => destruct m as [p|]; [|discriminate H]; cbn [rbind] in H end);
    apply Ok_inj in H; subst ps; split; try (cbn; lia); try reflexivity; intros Hf; discriminate Hf.
Qed.

Definition flowing (os : list rstep) (p : repl) (out : rout) (h : list entry) : Prop :=
  o_lost out = [] /\
  ((p_fifo p = [] /\ queued h = []) \/
   exists a c b h1 h2 ws, os = a ++ RType c :: b /\ sends c = true /\ h = h1 ++ h2 /\ SpecTx.waiting h1 ws /\ queued h2 = [] /\
     (length ws + length (p_fifo p) <= 2)%nat /\ (loops b + length (p_fifo p) <= 2 + length (ticks h2))%nat /\
     (p_fifo p <> [] -> h2 = [])).

Lemma flowing_empty : forall os p out h, history_ok repl_config h -> Forall (fun bs => (length bs <= 18)%nat) (queued h) ->
  flowing os p out h -> (forall a c b, os = a ++ RType c :: b -> sends c = true -> (785 <= loops b)%nat) ->
  p_fifo p = [] /\ SpecTx.waiting h [].
Proof.
  intros os p out h Hh H18 (_ & [[Hf Hq]|(a & c & b & h1 & h2 & ws & Ho & Hc & -> & Hw & Hq & Hl1 & Hl2 & Hn)]) Hpat.
  - split; [exact Hf|]. destruct (waiting_all _ h Hh) as (ws & Hws). rewrite Hq in Hws. symmetry in Hws. apply app_eq_nil in Hws.
    unfold SpecTx.waiting. rewrite Hq, (proj1 Hws). reflexivity.
  - specialize (Hpat a c b Ho Hc). assert (Hf : p_fifo p = []).
    { destruct (p_fifo p) as [|q r]; [reflexivity|]. rewrite (Hn ltac:(discriminate)) in Hl2. cbn [length ticks flat_map] in Hl2. lia. }
    split; [exact Hf|]. rewrite Hf in *. cbn [length] in *.
    assert (Hst : (length ws <= length (started h2))%nat) by (apply (starts _ h1 h2 _ repl_config_ok Hh H18); lia).
    destruct (drain _ h1 ws h2 Hh Hw Hq) as [_ Hd]. rewrite skipn_all2 in Hd by lia. exact Hd.
Qed.

Lemma flowing_step : forall os o p out h p1 x h', patient (os ++ [o]) -> history_ok repl_config (h ++ h') ->
  Forall (fun bs => (length bs <= 18)%nat) (queued h) -> flowing os p out h -> grown o p p1 x h' ->
  flowing (os ++ [o]) p1 (rcat out x) (h ++ h').
Proof.
  intros os o p out h p1 x h' Hpat Hh H18 HF HG. pose proof (history_app _ _ _ Hh) as Hh0.
  assert (Hcopy : forall o, is_loop o = false -> p_fifo p1 = p_fifo p -> o_lost x = [] -> flowing (os ++ [o]) p1 (rcat out x) (h ++ [])).
  { intros o0 Ho Hf Hx. rewrite app_nil_r. destruct HF as (Hlo & HF). split; [cbn [rcat o_lost]; rewrite Hlo, Hx; reflexivity|].
    rewrite Hf. destruct HF as [HF|(a & c & b & h1 & h2 & ws & He & HF)]; [left; exact HF|]. right.
    exists a, c, (b ++ [o0]), h1, h2, ws. rewrite He, loops_snoc, Ho, Nat.add_0_r, <- app_assoc. split; [reflexivity|exact HF]. }
  destruct o as [| | |c]; cbn [grown] in HG.
  - destruct HG as (-> & Hx & Hf). apply Hcopy; auto.
  - destruct HG as (-> & Hx & Hf). apply Hcopy; auto.
  - destruct HG as (e & Hqe & Hte & HG).
    assert (Hlost : o_lost x = [] -> o_lost (rcat out x) = []) by (intros Hx; cbn [rcat o_lost]; rewrite (proj1 HF), Hx; reflexivity).
    destruct (p_fifo p) as [|q r] eqn:Ef.
    + destruct HG as (Hf & -> & Hx). split; [auto|]. rewrite Hf.
      destruct HF as (_ & [[_ Hq]|(a & c & b & h1 & h2 & ws & He & Hc & Hhe & Hw & Hq & Hl1 & Hl2 & Hn)]).
      * left. rewrite queued_app, Hq, Hqe. auto.
      * right. rewrite Ef in *. exists a, c, (b ++ [RLoop]), h1, (h2 ++ e), ws.
        rewrite He, Hhe, loops_snoc, queued_app, ticks_app, app_length, Hq, Hqe, Hte, <- !app_assoc. cbn [is_loop length] in *.
        repeat split; auto; try lia. intros H; contradiction.
    + destruct HF as (_ & [[Hz _]|(a & c & b & h1 & h2 & ws & He & Hc & Hhe & Hw & Hq & Hl1 & Hl2 & Hn)]); [rewrite Ef in Hz; discriminate Hz|].
      rewrite Ef in *. specialize (Hn ltac:(discriminate)). subst h2. rewrite app_nil_r in Hhe. subst h1. cbn [length ticks flat_map] in *.
      assert (Hhe : history_ok repl_config (h ++ e)).
      { destruct HG as (_ & [[-> _]|[-> _]]); rewrite app_assoc in Hh; exact (history_app _ _ _ Hh). }
      destruct (drain _ h ws e Hhe Hw Hqe) as [_ Hd]. set (ws1 := skipn (length (started e)) ws) in *.
      assert (Hws1 : (length ws1 <= length ws)%nat) by (unfold ws1; rewrite skipn_length; lia).
      destruct HG as (Hf & [[-> Hx]|[-> Hx]]).
      * split; [auto|]. right. rewrite Hf. exists a, c, (b ++ [RLoop]), ((h ++ e) ++ [Queued q]), [], (ws1 ++ [q]).
        rewrite He, loops_snoc, <- !app_assoc. cbn [is_loop length ticks flat_map List.app]. rewrite app_length. cbn [length].
        split; [reflexivity|]. split; [exact Hc|]. split; [rewrite ?app_nil_r; reflexivity|].
        split; [|split; [reflexivity|split; [lia|split; [lia|auto]]]].
        unfold SpecTx.waiting in *. rewrite app_assoc, queued_app, sent_app, Hd. cbn [queued sent flat_map List.app].
        rewrite app_nil_r, app_assoc. reflexivity.
      * exfalso. rewrite app_assoc in Hh. destruct (Hh (h ++ e) (Refused q) [] eq_refl) as (ws2 & Hw2 & Hj).
        assert (ws2 = ws1) as -> by (unfold SpecTx.waiting in Hw2, Hd; rewrite Hd in Hw2; apply app_inv_head in Hw2; congruence).
        lia.
  - destruct HG as (-> & Hx & ps & Hps & Hf). destruct (two_packets _ _ _ Hps) as [H2 H0].
    destruct (sends c) eqn:Es; [|rewrite (H0 eq_refl), app_nil_r in Hf; apply Hcopy; auto].
    assert (Hpat1 : forall a c1 b, os = a ++ RType c1 :: b -> sends c1 = true -> (785 <= loops b)%nat).
    { intros a c1 b -> H1. apply (Hpat a c1 b c []); [rewrite <- app_assoc; reflexivity|exact H1|exact Es]. }
    destruct (flowing_empty os p out h Hh0 H18 HF Hpat1) as [Hf0 Hw]. rewrite Hf0 in Hf. cbn [List.app] in Hf.
    split; [cbn [rcat o_lost]; rewrite (proj1 HF), Hx; reflexivity|]. right. rewrite app_nil_r, Hf.
    exists os, c, [], h, [], []. rewrite app_nil_r. cbn [length]. repeat split; auto; try (cbn; lia).
Qed.

Lemma unhurried_patient : forall os, unhurried os -> patient os.
Proof. intros os [H _]. exact H. Qed.

Lemma session_short : forall os p out h popped pss, every_command documented os -> every_command short_address os ->
  session os p out h popped pss -> Forall (fun bs => (length bs <= 18)%nat) (queued h) /\ history_ok repl_config h.
Proof.
  intros os p out h popped pss Hd Hs [(a & ws & HR & HH) _ Hty Hfi Hlo _]. split; [|exact (HI_ok _ _ _ _ HH)].
  assert (H3 : 0 <= 3 <= 127) by lia. destruct (typed_ok os 3 Hd Hs H3) as [Hok _].
  apply Forall_forall. intros q Hq. assert (Hall := all_packets_ok _ _ Hok Hty). rewrite Forall_forall in Hall.
  destruct (Hall q) as (_ & ? & _); [|lia]. rewrite Hfi. apply in_or_app. left. exact (merged_In_left _ _ _ _ q Hlo Hq).
Qed.

Lemma patient_session : forall os, every_command documented os -> every_command short_address os -> every_command leaves_cv1 os ->
  ready_first os -> attentive os -> patient os ->
  exists p out h popped pss, repl_run os repl0 = Done (p, out) /\ session os p out h popped pss /\ idle_queue p /\ flowing os p out h.
Proof.
  induction os as [|o os IH] using rev_ind; intros Hd Hs Hl Hre Hat Hpat.
  - exists repl0, nothing, [], [], []. split; [reflexivity|]. split; [exact session0|]. split; [intros s H; discriminate H|].
    split; [reflexivity|]. left. auto.
  - destruct (IH (every_app _ _ _ Hd) (every_app _ _ _ Hs) (every_app _ _ _ Hl) (ready_app _ _ Hre) (attentive_app _ _ Hat) (patient_app _ _ Hpat))
      as (p & out & h & popped & pss & Hrun & HS & Hi & HF).
    destruct (total_step os o p out h popped pss Hd Hs Hl Hre Hat HS Hi) as (p1 & x & Hstep & Hi1).
    destruct (session_step os o p out h popped pss p1 x Hd Hs HS Hstep) as (h' & popped1 & pss1 & HS1 & HG).
    { intros s Hp. specialize (Hi1 s Hp). lia. }
    exists p1, (rcat out x), (h ++ h'), popped1, pss1. split; [exact (repl_run_then os _ p out o p1 x Hrun Hstep)|].
    split; [exact HS1|]. split; [exact Hi1|].
    destruct (session_short _ _ _ _ _ _ (every_app _ _ _ Hd) (every_app _ _ _ Hs) HS) as [H18 _].
    destruct (session_short _ _ _ _ _ _ Hd Hs HS1) as [_ Hh1].
    exact (flowing_step os o p out h p1 x h' Hpat Hh1 H18 HF HG).
Qed.

Theorem repl_done : forall os, every_command documented os -> every_command short_address os -> every_command leaves_cv1 os ->
  ready_first os -> attentive os -> unhurried os ->
  exists p out, repl_run os repl0 = Done (p, out) /\ o_lost out = [] /\ p_fifo p = [] /\
    let x := carry_out_all (orders_typed 3 os) (cvs_of repl_cvs, None) in
    seen_in (o_calls out) = snd x /\ (forall a, cvs_in p a = fst (fst x) a).
Proof.
  intros os Hd Hs Hl Hre Hat Hun.
  destruct (patient_session os Hd Hs Hl Hre Hat (unhurried_patient _ Hun)) as (p & out & h & popped & pss & Hrun & HS & Hi & HF).
  exists p, out. split; [exact Hrun|]. pose proof HF as (Hlost & HF'). split; [exact Hlost|].
  destruct (session_short _ _ _ _ _ _ Hd Hs HS) as [H18 Hh].
  assert (Hend : forall a c b, os = a ++ RType c :: b -> sends c = true -> (785 <= loops b)%nat).
  { intros a c b He Hc. pose proof (proj2 Hun a c b He Hc). lia. }
  destruct (flowing_empty os p out h Hh H18 HF Hend) as [Hf Hw]. split; [exact Hf|].
  destruct (repl_defined os Hd Hs Hl Hre Hat) as (p' & out' & Hrun' & _ & Hkeep). rewrite Hrun in Hrun'. apply Done_inj in Hrun'.
  injection Hrun' as <- <-.
  assert (Hq : queued h = concat pss).
  { destruct HS as [_ _ _ Hfi Hlo _]. rewrite Hlost in Hlo. apply merged_none in Hlo. rewrite Hfi, Hf, app_nil_r, Hlo. reflexivity. }
  assert (Hty : Forall2 packets_for (orders_typed 3 os) pss) by apply (ss_typed _ _ _ _ _ _ HS).
  apply (repl_obeys os p out Hd Hs Hrun Hkeep Hlost (orders_typed 3 os) [] pss (eq_sym (app_nil_r _)) Hty).
  rewrite <- Hq.
  assert (H3 : 0 <= 3 <= 127) by lia. destruct (typed_ok os 3 Hd Hs H3) as [Hok _]. clear H3.
  destruct HF' as [[_ Hq0]|(a & c & b & h1 & h2 & ws & Ho & Hc & -> & Hw1 & Hq2 & Hl1 & Hl2 & _)].
  - destruct (session_delivered os p out h popped pss Hd Hs HS) as [(rest & Hr) _]. rewrite Hq0 in *.
    apply app_eq_nil in Hr. rewrite (proj1 Hr). reflexivity.
  - pose proof (proj2 Hun a c b Ho Hc) as Hlb. rewrite Hf in *. cbn [length] in *.
    assert (Hst : In RStart os).
    { assert (Hex : exists o, In o b /\ is_loop o = true).
      { unfold loops in Hlb. destruct (filter is_loop b) as [|o l] eqn:El; [cbn in Hlb; lia|]. exists o.
        apply filter_In. rewrite El. left. reflexivity. }
      destruct Hex as (o & Hin & Hloop). destruct o; try discriminate Hloop. apply in_split in Hin. destruct Hin as (b1 & b2 & ->).
      assert (Hin : In RStart (a ++ RType c :: b1)) by (apply (Hre (a ++ RType c :: b1) b2); rewrite Ho, <- app_assoc; reflexivity).
      rewrite Ho. apply in_app_or in Hin. apply in_or_app. destruct Hin as [Hin|Hin]; [left; exact Hin|right].
      destruct Hin as [Hin|Hin]; [discriminate Hin|]. right. apply in_or_app. left. exact Hin. }
    pose proof (ss_decoder _ _ _ _ _ _ HS) as Hde. unfold decoding in Hde.
    destruct (p_decoder p) as [s|] eqn:Ep; [|exfalso; apply Hde, Hst].
    destruct Hde as (dos & D0 & D1 & D2 & D3 & D4 & D5).
    destruct (decoder_total os dos (h1 ++ h2) Hd Hs Hl Hat D0 Hh (queued_known os p out _ popped pss Hd Hs HS) D2)
      as (s' & es' & Hrun2 & _ & Hfin & Hle).
    rewrite D1 in Hrun2. apply Ok_inj in Hrun2. injection Hrun2 as <- <-. rewrite D5 in Hfin.
    destruct (all_finished _ h1 ws h2 repl_config_ok Hh H18 Hw1 Hq2 ltac:(lia)) as (fs & r & Hf1 & Hr1 & Hr2 & Hr3).
    rewrite Hf1 in Hfin.
    assert (Hni : filter not_idle (queued (h1 ++ h2)) = queued (h1 ++ h2)) by (rewrite Hq; exact (orders_not_idle _ _ Hok Hty)).
    rewrite Hni in Hr3. rewrite <- Hr3. f_equal.
    assert (Hall : filter not_idle (fs ++ [0xFF; 0; 0xFF] :: r) = filter not_idle fs).
    { rewrite filter_app. cbn [filter]. change (not_idle [0xFF; 0; 0xFF]) with false. cbn iota.
      replace (filter not_idle r) with (@nil (list Z)); [apply app_nil_r|].
      clear - Hr2. induction Hr2 as [|x l -> H IH]; [reflexivity|]. exact IH. }
    rewrite <- Hall, Hfin, filter_app.
    replace (filter not_idle (r_deque (rxs s))) with (@nil (list Z)); [rewrite app_nil_r; reflexivity|].
    destruct (r_deque (rxs s)) as [|q [|q' l]]; [reflexivity| |cbn [length] in Hle; lia].
    assert (q = [0xFF; 0; 0xFF]) as ->; [|reflexivity].
    destruct r as [|x r _] using rev_ind.
    + apply app_inj_tail in Hfin. symmetry. apply Hfin.
    + rewrite app_comm_cons, app_assoc in Hfin. apply app_inj_tail in Hfin. destruct Hfin as [_ <-].
      apply Forall_app in Hr2. destruct Hr2 as [_ Hr2]. apply Forall_inv in Hr2. exact Hr2.
Qed.
