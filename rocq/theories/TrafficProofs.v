From Verif Require Import Prelude Address SpecCodec CodecProofs2 RxState Rx SpecTx Tx SpecRx SpecExec SpecConf SpecCv SpecBidi SpecSafe
  SpecLayout SpecLayout2 SpecStation StationProofs2 StationProofs4 AlikeProofs2 SpecTraffic.

(** CVs that hold the numbers of a decoder *)
Definition same_numbers (c c' : Z -> Z) : Prop := forall a, In (a + 1) [1; 17; 18; 19; 20; 29] -> c a = c' a.

Lemma same_answers : forall c c' n, same_numbers c c' -> answers c n = answers c' n.
Proof.
  intros c c' n H. assert (Ho : own_address c = own_address c').
  { unfold own_address, cv. rewrite !(H (29 - 1)), (H (17 - 1)), (H (18 - 1)), (H (1 - 1)) by (cbn; auto 10). reflexivity. }
  assert (Hc : consist_address c = consist_address c').
  { unfold consist_address, cv. rewrite !(H (19 - 1)), (H (20 - 1)) by (cbn; auto 10). reflexivity. }
  unfold answers. rewrite Ho, Hc. reflexivity.
Qed.

Lemma mine_same : forall c c' os, same_numbers c c' -> filter (mine c) os = filter (mine c') os.
Proof. intros c c' os H. apply filter_ext. intros o. apply same_answers. exact H. Qed.

Lemma after_numbers : forall x c, (is_writing x = true -> ~ In (target x + 1) [1; 17; 18; 19; 20; 29]) -> same_numbers c (after x c).
Proof.
  intros x c H a Ha. destruct x; cbn [after is_writing target] in *; try reflexivity; unfold set_cv;
    (destruct (a =? a0) eqn:E; [apply Z.eqb_eq in E; subst a0; exfalso; exact (H eq_refl Ha)|reflexivity]).
Qed.

Lemma fold_numbers : forall xs c, Forall (fun x => is_writing x = true -> ~ In (target x + 1) [1; 17; 18; 19; 20; 29]) xs ->
  same_numbers c (fold_left (fun c x => after x c) xs c).
Proof.
  induction xs as [|x r IH]; intros c H; cbn [fold_left]; [intros a _; reflexivity|].
  pose proof (Forall_inv H) as H1. pose proof (IH (after x c) (Forall_inv_tail H)) as H2.
  intros a Ha. rewrite (after_numbers x c H1 a Ha). apply H2. exact Ha.
Qed.

Lemma wanted_numbers : forall o again, keeps_number o ->
  Forall (fun x => is_writing x = true -> ~ In (target x + 1) [1; 17; 18; 19; 20; 29]) (wanted again (snd o)).
Proof.
  intros [n d] again H. unfold keeps_number in H. cbn [snd] in *.
  destruct d; cbn [wanted]; try destruct again;
    repeat (apply Forall_cons; [cbn [is_writing target]; intros X; first [discriminate X|exact H]|]); apply Forall_nil.
Qed.

Lemma carry_numbers : forall o c last, keeps_number o -> same_numbers c (fst (fst (carry_out o (c, last)))).
Proof.
  intros [n d] c last H. unfold carry_out.
  destruct (negb (answers c n)); [intros a _; reflexivity|].
  destruct (negb (on_cvs d)); [intros a _; reflexivity|].
  destruct (negb (n =? 0) && (n =? aval (consist_address c))); [intros a _; reflexivity|].
  cbn [fst]. apply fold_numbers. apply Forall_forall. intros x Hx. apply filter_In in Hx. destruct Hx as [Hx _].
  pose proof (wanted_numbers (n, d) (same last n d) H) as HF. rewrite Forall_forall in HF. apply HF. exact Hx.
Qed.

(** Orders to others might as well not have been given *)
Lemma only_mine : forall os c last, Forall keeps_number (filter (mine c) os) ->
  carry_out_all os (c, last) = carry_out_all (filter (mine c) os) (c, last).
Proof.
  induction os as [|o r IH]; intros c last H; [reflexivity|].
  cbn [filter] in H |- *. destruct (mine c o) eqn:Em.
  - pose proof (Forall_inv H) as H1. apply Forall_inv_tail in H. cbn [carry_out_all].
    pose proof (carry_numbers o c last H1) as Hn.
    destruct (carry_out o (c, last)) as [[c1 l1] a] eqn:Ec. cbn [fst] in Hn.
    rewrite (mine_same c c1 r Hn) in H |- *. rewrite (IH c1 l1 H). reflexivity.
  - cbn [carry_out_all]. unfold mine in Em. destruct o as [n d]. cbn [fst] in Em.
    assert (Hc : carry_out (n, d) (c, last) = ((c, last), [])) by (unfold carry_out; rewrite Em; reflexivity).
    rewrite Hc, (IH c last H). destruct (carry_out_all (filter (mine c) r) (c, last)) as [m2 b]. reflexivity.
Qed.

Lemma carry_sensible : forall o mem, keeps_number o -> Forall (allowed sensible) (snd (carry_out o mem)).
Proof.
  intros [n d] [c last] H. unfold carry_out.
  destruct (negb (answers c n)); [apply Forall_nil|].
  destruct (negb (on_cvs d)); [cbn [snd]; apply Forall_forall; intros x Hx; apply in_map_iff in Hx; destruct Hx as (e & <- & _); exact Logic.I|].
  destruct (negb (n =? 0) && (n =? aval (consist_address c))); [apply Forall_nil|].
  cbn [snd]. apply Forall_forall. intros x Hx. apply in_map_iff in Hx. destruct Hx as (y & <- & Hy).
  apply filter_In in Hy. destruct Hy as [Hy _].
  pose proof (wanted_numbers (n, d) (same last n d) H) as HF. rewrite Forall_forall in HF. specialize (HF y Hy).
  cbn [allowed]. intros Hw. specialize (HF Hw). destruct y; cbn [sensible target] in *; try exact Logic.I; intros ->; exfalso; apply HF; left; reflexivity.
Qed.

Lemma carry_all_sensible : forall os mem, Forall keeps_number os -> Forall (allowed sensible) (snd (carry_out_all os mem)).
Proof.
  induction os as [|o r IH]; intros mem H; [apply Forall_nil|]. cbn [carry_out_all].
  pose proof (carry_sensible o mem (Forall_inv H)) as H1. destruct (carry_out o mem) as [m1 a].
  pose proof (IH m1 (Forall_inv_tail H)) as H2. destruct (carry_out_all r m1) as [m2 b]. cbn [snd] in *.
  apply Forall_app. split; assumption.
Qed.

Section Layout.
  Context {I : Type}.
  Variable E : Env I.
  Variable m : I -> Z -> Z.
  Variable able : access -> Prop.
  Variable time : I -> Z.
  Hypothesis Hk : keeps_cvs able E m.
  Hypothesis HC : clock E time.

  Lemma mine_done : forall c os pss ks n i, 0 <= time i -> m i 0 < 128 -> config_ok c -> Forall order_ok os -> Forall2 packets_for os pss ->
    length ks = length os -> Forall (fun k => (782 < k)%nat) ks -> (782 < n)%nat ->
    let os' := filter (mine (m i)) os in Forall keeps_number os' ->
    Forall (allowed able) (snd (carry_out_all os' (m i, None))) ->
    exists xs tx, tx_run (TInit c :: flat_map calls (combine pss ks) ++ repeat TTransmit n) (tx_init_state 4)
                  = Ok ((None, []) :: xs, tx) /\
    forall dos, filter is_receive dos = map OReceive (map fst (intervals xs)) -> ~ In ODisable dos ->
      executes_every 76 dos -> on_time dos ->
      exists s es, run E (OInit :: dos) (st0 i) = Ok (tt, s, es) /\
        seen_in es = snd (carry_out_all os' (m i, None)) /\
        forall a, m (app s) a = fst (fst (carry_out_all os' (m i, None))) a.
  Proof.
    intros c os pss ks n i Ht H1 Hc Ho Hp Hl Hks Hn os' Hkn Ha.
    assert (Heq : carry_out_all os (m i, None) = carry_out_all os' (m i, None)) by (apply only_mine; exact Hkn).
    assert (Ha' : Forall (allowed (fun x => able x /\ sensible x)) (snd (carry_out_all os (m i, None)))).
    { rewrite Heq. pose proof (carry_all_sensible os' (m i, None) Hkn) as Hs. revert Ha Hs. rewrite !Forall_forall.
      intros Ha Hs x Hx. specialize (Ha x Hx). specialize (Hs x Hx). destruct x as [e|x]; [exact Logic.I|].
      cbn [allowed] in *. intros Hw. split; [exact (Ha Hw)|exact (Hs Hw)]. }
    destruct (short_orders_done E m able time Hk HC c os pss ks n i Ht H1 Hc Ho Hp Hl Hks Hn Ha') as (xs & tx & Hr & HD).
    exists xs, tx. split; [exact Hr|]. intros dos D1 D2 D3 D4. destruct (HD dos D1 D2 D3 D4) as (s & es & R1 & R2 & R3).
    exists s, es. split; [exact R1|]. rewrite <- Heq. split; assumption.
  Qed.

  (** What a decoder does depends on the orders to it alone *)
  Lemma private : forall c1 os1 pss1 ks1 n1 c2 os2 pss2 ks2 n2 i, 0 <= time i -> m i 0 < 128 ->
    config_ok c1 -> Forall order_ok os1 -> Forall2 packets_for os1 pss1 -> length ks1 = length os1 ->
    Forall (fun k => (782 < k)%nat) ks1 -> (782 < n1)%nat ->
    config_ok c2 -> Forall order_ok os2 -> Forall2 packets_for os2 pss2 -> length ks2 = length os2 ->
    Forall (fun k => (782 < k)%nat) ks2 -> (782 < n2)%nat ->
    filter (mine (m i)) os1 = filter (mine (m i)) os2 -> Forall keeps_number (filter (mine (m i)) os1) ->
    Forall (allowed able) (snd (carry_out_all (filter (mine (m i)) os1) (m i, None))) ->
    exists xs1 tx1 xs2 tx2,
    tx_run (TInit c1 :: flat_map calls (combine pss1 ks1) ++ repeat TTransmit n1) (tx_init_state 4) = Ok ((None, []) :: xs1, tx1) /\
    tx_run (TInit c2 :: flat_map calls (combine pss2 ks2) ++ repeat TTransmit n2) (tx_init_state 4) = Ok ((None, []) :: xs2, tx2) /\
    forall dos1 dos2,
      filter is_receive dos1 = map OReceive (map fst (intervals xs1)) -> ~ In ODisable dos1 -> executes_every 76 dos1 -> on_time dos1 ->
      filter is_receive dos2 = map OReceive (map fst (intervals xs2)) -> ~ In ODisable dos2 -> executes_every 76 dos2 -> on_time dos2 ->
      exists s1 es1 s2 es2, run E (OInit :: dos1) (st0 i) = Ok (tt, s1, es1) /\ run E (OInit :: dos2) (st0 i) = Ok (tt, s2, es2) /\
        seen_in es1 = seen_in es2 /\ forall a, m (app s1) a = m (app s2) a.
  Proof.
    intros c1 os1 pss1 ks1 n1 c2 os2 pss2 ks2 n2 i Ht H1 A1 A2 A3 A4 A5 A6 B1 B2 B3 B4 B5 B6 He Hkn Ha.
    destruct (mine_done c1 os1 pss1 ks1 n1 i Ht H1 A1 A2 A3 A4 A5 A6 Hkn Ha) as (xs1 & tx1 & R1 & D1).
    rewrite He in Hkn, Ha. destruct (mine_done c2 os2 pss2 ks2 n2 i Ht H1 B1 B2 B3 B4 B5 B6 Hkn Ha) as (xs2 & tx2 & R2 & D2).
    exists xs1, tx1, xs2, tx2. split; [exact R1|]. split; [exact R2|].
    intros dos1 dos2 X1 X2 X3 X4 Y1 Y2 Y3 Y4.
    destruct (D1 dos1 X1 X2 X3 X4) as (s1 & es1 & P1 & P2 & P3). destruct (D2 dos2 Y1 Y2 Y3 Y4) as (s2 & es2 & Q1 & Q2 & Q3).
    exists s1, es1, s2, es2. split; [exact P1|]. split; [exact Q1|]. rewrite P2, Q2, He. split; [reflexivity|].
    intros a. rewrite P3, Q3, He. reflexivity.
  Qed.
End Layout.
