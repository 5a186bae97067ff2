(** The REPL example starting from the CVs it is shipped with *)
From Verif Require Import Prelude Address Packets SpecCodec SpecTx Tx CodecProofs2 RxState Rx SpecRx SpecExec SpecConf SpecCv
  SpecLayout SpecLayout2 Repl SpecRepl CarryProofs ReplProofs4 ReplProofs7.

Lemma shipped_cvs : eqf (cvs_of repl_cvs) shipped.
Proof.
  intros a. unfold cvs_of, repl_cvs, shipped. cbn [find fst].
  destruct (Z.eqb_spec 1 (a + 1)); [replace a with 0 by lia; reflexivity|].
  destruct (Z.eqb_spec 8 (a + 1)); [replace a with 7 by lia; reflexivity|].
  destruct (Z.eqb_spec 29 (a + 1)); [replace a with 28 by lia; reflexivity|].
  destruct ((0 <=? a) && (a <? 1024)); [|reflexivity]. destruct (Z.eqb_spec a (29 - 1)); [lia|]. destruct (Z.eqb_spec a (1 - 1)); [lia|].
  destruct (Z.eqb_spec a (8 - 1)); [lia|]. reflexivity.
Qed.

Theorem shipped_obeys : forall os p out, every_command documented os -> every_command short_address os ->
  repl_run os repl0 = Done (p, out) -> keeps_up os -> o_lost out = [] ->
  forall os1 os2 pss1, orders_typed 3 os = os1 ++ os2 -> Forall2 packets_for os1 pss1 ->
  length (filter not_idle (o_done out)) = length (concat pss1) ->
  let x := carry_out_all os1 (shipped, None) in
  seen_in (o_calls out) = snd x /\ (forall a, cvs_in p a = fst (fst x) a).
Proof.
  intros os p out H1 H2 H3 H4 H5 os1 os2 pss1 H6 H7 H8. cbv zeta.
  destruct (repl_obeys os p out H1 H2 H3 H4 H5 os1 os2 pss1 H6 H7 H8) as [K1 K2].
  destruct (carry_all_ext os1 _ _ None shipped_cvs) as [E1 E2]. split; [congruence|]. intros a. rewrite (K2 a). apply E2.
Qed.
Theorem shipped_done : forall os, every_command documented os -> every_command short_address os -> every_command leaves_cv1 os ->
  ready_first os -> attentive os -> unhurried os ->
  exists p out, repl_run os repl0 = Done (p, out) /\ o_lost out = [] /\ p_fifo p = [] /\
    let x := carry_out_all (orders_typed 3 os) (shipped, None) in
    seen_in (o_calls out) = snd x /\ (forall a, cvs_in p a = fst (fst x) a).
Proof.
  intros os H1 H2 H3 H4 H5 H6. destruct (repl_done os H1 H2 H3 H4 H5 H6) as (p & out & K1 & K2 & K3 & K4 & K5).
  destruct (carry_all_ext (orders_typed 3 os) _ _ None shipped_cvs) as [E1 E2].
  exists p, out. split; [exact K1|]. split; [exact K2|]. split; [exact K3|]. split; [congruence|]. intros a. rewrite (K5 a). apply E2.
Qed.
