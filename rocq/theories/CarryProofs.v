(** Carrying out orders depends on the values of the CVs only *)
From Verif Require Import Prelude Address SpecCodec RxState Rx SpecRx SpecExec SpecConf SpecCv SpecLayout SpecLayout2.

Definition eqf (c d : Z -> Z) : Prop := forall a, c a = d a.
Lemma carry_ext : forall o c d last, eqf c d ->
  snd (carry_out o (c, last)) = snd (carry_out o (d, last)) /\ snd (fst (carry_out o (c, last))) = snd (fst (carry_out o (d, last))) /\
  eqf (fst (fst (carry_out o (c, last)))) (fst (fst (carry_out o (d, last)))).
Proof.
  intros [n x] c d last H.
  assert (H1 : own_address c = own_address d) by (unfold own_address, cv; rewrite !H; reflexivity).
  assert (H2 : consist_address c = consist_address d) by (unfold consist_address, cv; rewrite !H; reflexivity).
  assert (H3 : switches c = switches d) by (unfold switches, cv; rewrite !H; reflexivity).
  assert (H4 : told c n x = told d n x).
  { unfold told. assert (A : addresses c = addresses d) by (unfold addresses; rewrite H1, H2; reflexivity). rewrite A, H3. reflexivity. }
  unfold carry_out. rewrite H2, H3, H4. unfold answers. rewrite H1, H2.
  destruct (negb _); [auto|]. destruct (negb _); [auto|]. destruct (negb _ && _); [auto|]. cbn [fst snd]. split; [reflexivity|]. split; [reflexivity|].
  generalize (filter (permitted (cvs_locked (switches d))) (wanted (SpecLayout2.same last n x) x)). intros l. clear H1 H2 H3 H4. revert c d H.
  induction l as [|y l IH]; intros c d H; [exact H|]. cbn [fold_left]. apply IH. intros a. destruct y; cbn [after]; unfold set_cv; rewrite ?H; reflexivity.
Qed.
Lemma carry_all_ext : forall os c d last, eqf c d ->
  snd (carry_out_all os (c, last)) = snd (carry_out_all os (d, last)) /\ eqf (fst (fst (carry_out_all os (c, last)))) (fst (fst (carry_out_all os (d, last)))).
Proof.
  induction os as [|o os IH]; intros c d last H; [split; [reflexivity|exact H]|]. cbn [carry_out_all].
  destruct (carry_ext o c d last H) as (H1 & H2 & H3).
  destruct (carry_out o (c, last)) as [[c1 l1] x1]. destruct (carry_out o (d, last)) as [[d1 l2] x2]. cbn [fst snd] in *. subst.
  destruct (IH c1 d1 l2 H3) as [K1 K2]. destruct (carry_out_all os (c1, l2)) as [m1 y1]. destruct (carry_out_all os (d1, l2)) as [m2 y2].
  cbn [fst snd] in *. subst. auto.
Qed.
