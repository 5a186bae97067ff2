(** An interrupted disable() takes place at one moment, unless a bit of a packet gets between its stores. *)
From Verif Require Import Prelude Address Instruction Checksum Datagram RxState Rx RxLogic Comm SpecCodec SpecRx RxBitProofs ExecProofs SpecModes ModesProofs
  SpecBidi BidiProofs Preempt SpecPreempt PreemptProofs PreemptProofs2 PreemptOff SpecOff OffProofs.

Section Serial.
  Context {I : Type} (E : Env I).
  Implicit Types s : st I.
  Notation chg h s := (changed (on_fsm h) s).
  Notation off s := (changed (set_enabled_flag false) s).

  Definition resets : M (I := I) unit := modify (on_fsm reset_fsm).
  Definition stores (w3 w4 w5 : list op) : M (I := I) unit :=
    bind (run E w3) (fun _ => bind (modify (set_f_byte 0)) (fun _ =>
    bind (run E w4) (fun _ => bind (modify (set_f_bit_count 0)) (fun _ =>
    bind (run E w5) (fun _ => modify (set_f_state Preamble)))))).

  (** All interrupts before the stores *)
  Lemma stores_before : forall w3 w4 w5 s, passes E no_checksum w3 s ->
    (forall s3 e3, run E w3 s = Ok (tt, s3, e3) -> passes E no_byte w4 s3 /\
       (forall s4 e4, run E w4 s3 = Ok (tt, s4, e4) -> passes E no_count w5 s4)) ->
    stores w3 w4 w5 (chg no_checksum s) = bind (run E (w3 ++ w4 ++ w5)) (fun _ => resets) s.
  Proof.
    intros w3 w4 w5 s H3 H. rewrite (bind_eq _ _ (run E (w3 ++ w4 ++ w5)) (bind (run E w3) (fun _ => bind (run E w4) (fun _ => run E w5))) _ (fun _ => resets) s).
    2: { rewrite run_both. apply bind_eq; [reflexivity|]. intros _ s'. apply run_both. }
    2: reflexivity.
    unfold stores, bind. rewrite H3. destruct (run E w3 s) as [[[[] s3] e3]|]; [|reflexivity]. cbn [after_change].
    destruct (H _ _ eq_refl) as [H4 H5]. unfold modify at 1. 
    change (Mk_st (set_f_byte 0 (rxs (chg no_checksum s3))) (app (chg no_checksum s3)) (pending (chg no_checksum s3))) with (chg no_byte s3).
    rewrite H4. destruct (run E w4 s3) as [[[[] s4] e4]|]; [|reflexivity]. cbn [after_change].
    unfold modify at 1. change (Mk_st (set_f_bit_count 0 (rxs (chg no_byte s4))) (app (chg no_byte s4)) (pending (chg no_byte s4))) with (chg no_count s4).
    rewrite (H5 _ _ eq_refl). destruct (run E w5 s4) as [[[[] s5] e5]|]; [|reflexivity]. cbn [after_change].
    unfold resets, modify. change (Mk_st (set_f_state Preamble (rxs (chg no_count s5))) (app (chg no_count s5)) (pending (chg no_count s5))) with (Mk_st (on_fsm reset_fsm (rxs s5)) (app s5) (pending s5)).
    cbn [List.app]. rewrite !app_nil_r. reflexivity.
  Qed.

  Lemma cutout_fsm : forall os s s' es, forallb cutout os = true -> run E os s = Ok (tt, s', es) -> core (rxs s') = core (rxs s).
  Proof.
    induction os as [|o os IH]; intros s s' es Ho H; [inversion H; reflexivity|]. cbn [forallb] in Ho. apply andb_prop in Ho. destruct Ho as [H1 H2].
    cbn [run] in H. apply bind_inv in H. destruct H as (b & s1 & e1 & e2 & K1 & K2 & ->). rewrite (IH _ _ _ H2 K2).
    destruct o; try discriminate H1; cbn [step] in K1; apply bind_inv in K1; destruct K1 as (u & s2 & e3 & e4 & K3 & K4 & _); inversion K4; subst.
    - exact (core_biDi1 E _ _ _ _ K3).
    - exact (core_biDi2 E _ _ _ _ K3).
  Qed.

  (** The last interrupt meets a receiver that waits for a preamble *)
  Lemma stores_after : forall w3 w4 x1 t x2 s, forallb cutout w3 = true -> forallb cutout w4 = true -> forallb cutout x1 = true -> forallb cutout x2 = true ->
    f_state (r_fsm (rxs s)) = Preamble ->
    stores w3 w4 (x1 ++ OReceive t :: x2) (chg no_checksum s) = bind (run E (w3 ++ w4 ++ x1)) (fun _ => bind resets (fun _ => run E (OReceive t :: x2))) s.
  Proof.
    intros w3 w4 x1 t x2 s H3 H4 H5 H6 Hf.
    rewrite (bind_eq _ _ (run E (w3 ++ w4 ++ x1)) (bind (run E w3) (fun _ => bind (run E w4) (fun _ => run E x1))) _ (fun _ => bind resets (fun _ => run E (OReceive t :: x2))) s).
    2: { rewrite run_both. apply bind_eq; [reflexivity|]. intros _ s'. apply run_both. }
    2: reflexivity.
    unfold stores, bind. rewrite (passes_cutouts E no_checksum w3 s no_checksum_packet H3).
    destruct (run E w3 s) as [[[[] s3] e3]|] eqn:R3; [|reflexivity]. cbn [after_change].
    unfold modify at 1. change (Mk_st (set_f_byte 0 (rxs (chg no_checksum s3))) (app (chg no_checksum s3)) (pending (chg no_checksum s3))) with (chg no_byte s3).
    rewrite (passes_cutouts E no_byte w4 s3 no_byte_packet H4).
    destruct (run E w4 s3) as [[[[] s4] e4]|] eqn:R4; [|reflexivity]. cbn [after_change].
    unfold modify at 1. change (Mk_st (set_f_bit_count 0 (rxs (chg no_byte s4))) (app (chg no_byte s4)) (pending (chg no_byte s4))) with (chg no_count s4).
    rewrite run_both. unfold bind. rewrite (passes_cutouts E no_count x1 s4 no_count_packet H5).
    destruct (run E x1 s4) as [[[[] s5] e5]|] eqn:R5; [|reflexivity]. cbn [after_change].
    assert (F : f_state (r_fsm (rxs s5)) = Preamble).
    { pose proof (cutout_fsm _ _ _ _ H3 R3) as C3. pose proof (cutout_fsm _ _ _ _ H4 R4) as C4. pose proof (cutout_fsm _ _ _ _ H5 R5) as C5.
      unfold core in *. injection C3 as C3 _ _. injection C4 as C4 _ _. injection C5 as C5 _ _. rewrite C5, C4, C3. exact Hf. }
    assert (N : chg no_count s5 = chg reset_fsm s5).
    { destruct s5 as [[[ph bc by_ ck hb pk pe] dq cnt ad cf lg bd cv tm] i pd]. cbn in F. subst ph. reflexivity. }
    rewrite N. unfold resets, modify.
    change (Mk_st (on_fsm reset_fsm (rxs s5)) (app s5) (pending s5)) with (chg reset_fsm s5).
    destruct (run E (OReceive t :: x2) (chg reset_fsm s5)) as [[[[] s6] e6]|] eqn:R6; [|reflexivity].
    assert (G : f_state (r_fsm (rxs s6)) = Preamble).
    { cbn [run step] in R6. apply bind_inv in R6. destruct R6 as (u & s7 & e7 & e8 & K1 & K2 & _). apply bind_inv in K1. destruct K1 as (v & s8 & e9 & e10 & K3 & K4 & _).
      inversion K4; subst. pose proof (cutout_fsm _ _ _ _ H6 K2) as C. unfold core in C. injection C as C _ _. rewrite C. rewrite receive_machine in K3.
      destruct s5 as [[[ph bc by_ ck hb pk pe] dq cnt ad cf lg bd cv tm] i pd]. unfold machine, full in K3. cbn -[machine_bit] in K3.
      destruct (half_bit t) as [[]|]; [| |inversion K3; subst; reflexivity].
      all: unfold machine_bit in K3; destruct (length dq =? 31)%nat; cbn in K3; inversion K3; subst; reflexivity. }
    assert (T : Mk_st (set_f_state Preamble (rxs s6)) (app s6) (pending s6) = s6).
    { destruct s6 as [[[ph bc by_ ck hb pk pe] dq cnt ad cf lg bd cv tm] i pd]. cbn in G. subst ph. reflexivity. }
    rewrite T. cbn [List.app]. rewrite ?app_nil_r, <- ?app_assoc. reflexivity.
  Qed.
End Serial.

Lemma only_cutouts : forall os, Forall handler os -> filter is_receive os = [] -> forallb cutout os = true.
Proof.
  induction os as [|o os IH]; intros H1 H2; [reflexivity|]. inversion H1; subst. cbn [filter] in H2.
  destruct o; try contradiction; try discriminate H2; cbn [is_receive] in H2; cbn [forallb cutout andb]; auto.
Qed.
Lemma one_receive : forall os r, Forall handler os -> filter is_receive os = [r] ->
  exists x1 t x2, os = x1 ++ OReceive t :: x2 /\ r = OReceive t /\ forallb cutout x1 = true /\ forallb cutout x2 = true.
Proof.
  induction os as [|o os IH]; intros r H1 H2; [discriminate|]. inversion H1 as [|? ? Ha Hb]; subst. cbn [filter] in H2.
  destruct o; try contradiction; cbn [is_receive] in H2.
  - injection H2 as <- H2. exists [], time, os. split; [reflexivity|]. split; [reflexivity|]. split; [reflexivity|exact (only_cutouts _ Hb H2)].
  - destruct (IH _ Hb H2) as (x1 & t & x2 & -> & -> & H3 & H4). exists (OBiDi1 :: x1), t, x2. auto.
  - destruct (IH _ Hb H2) as (x1 & t & x2 & -> & -> & H3 & H4). exists (OBiDi2 :: x1), t, x2. auto.
Qed.
Lemma one_of_three : forall A (a b c : list A) x, a ++ b ++ c = [x] -> (a = [x] /\ b = [] /\ c = []) \/ (a = [] /\ b = [x] /\ c = []) \/ (a = [] /\ b = [] /\ c = [x]).
Proof.
  intros A a b c x H. destruct a as [|y a].
  - destruct b as [|y b]; [right; right; auto|]. cbn in H. injection H as -> H. apply app_eq_nil in H. destruct H as [-> ->]. right; left; auto.
  - cbn in H. injection H as -> H. apply app_eq_nil in H. destruct H as [-> H]. apply app_eq_nil in H. destruct H as [-> ->]. left; auto.
Qed.
Lemma handler_nth : forall w n, Forall (Forall handler) w -> Forall handler (nth n w []).
Proof.
  intros w n H. destruct (Nat.lt_ge_cases n (length w)) as [L|L]; [|rewrite nth_overflow by exact L; constructor].
  rewrite Forall_forall in H. apply H. apply nth_In. exact L.
Qed.

Section Serial2.
  Context {I : Type} (E : Env I).
  Implicit Types s : st I.
  Notation off s := (changed (set_enabled_flag false) s).

  Lemma within_halfbit : forall h f, Inv h f -> within_bit h = false -> f_state f = Preamble \/ f_state f = Startbit \/ f_is_halfbit f = false.
  Proof.
    intros h f H W. assert (K : forall n x body, within_bit (repeat true n ++ false :: x :: body) = Nat.odd (length body)).
    { intros n x body. unfold within_bit. replace (after_ones (repeat true n ++ false :: x :: body)) with (false :: x :: body); [reflexivity|].
      induction n as [|n IH]; [reflexivity|exact IH]. }
    unfold Inv in H. destruct (f_state f); auto; right; right.
    - destruct H as (_ & _ & _ & n & x & body & bits & _ & -> & _ & -> & _). rewrite K in W. exact W.
    - destruct H as (_ & _ & _ & _ & _ & n & x & body & q & bits & _ & -> & _ & _ & _ & ->). rewrite K in W. exact W.
  Qed.

  Lemma stores_serial : forall w3 w4 w5 l s, Rl l s -> Forall handler w3 -> Forall handler w4 -> Forall handler w5 ->
    match filter is_receive (w3 ++ w4 ++ w5) with
    | [] => True
    | [OReceive t] => half_bit t = None \/ within_bit (l_heard l) = false
    | _ => False
    end ->
    exists a b, w3 ++ w4 ++ w5 = a ++ b /\ forall f, f = true \/ f = false -> 
      let s' := if f : bool then off s else s in
      stores E w3 w4 w5 (changed (on_fsm no_checksum) s') = bind (run E a) (fun _ => bind resets (fun _ => run E b)) s'.
  Proof.
    intros w3 w4 w5 l s HR H3 H4 H5 HH.
    assert (Hin : half_bit 0 = None) by reflexivity.
    destruct (filter is_receive (w3 ++ w4 ++ w5)) as [|r rs] eqn:Ef.
    - rewrite !filter_app in Ef. apply app_eq_nil in Ef. destruct Ef as [F3 Ef]. apply app_eq_nil in Ef. destruct Ef as [F4 F5].
      apply only_cutouts in F3, F4, F5; try assumption. exists (w3 ++ w4 ++ w5), []. split; [rewrite app_nil_r; reflexivity|]. intros f _ s'.
      rewrite (stores_before E w3 w4 w5 s'); [|exact (passes_cutouts E _ _ _ no_checksum_packet F3)|].
      + apply bind_eq; [reflexivity|]. intros _ u. cbn [run]. unfold resets, bind, modify, ret. reflexivity.
      + intros s3 e3 _. split; [exact (passes_cutouts E _ _ _ no_byte_packet F4)|intros s4 e4 _; exact (passes_cutouts E _ _ _ no_count_packet F5)].
    - destruct rs as [|r' rs]; [|destruct r; contradiction].
      assert (Hi : forall t s', r = OReceive t -> core (rxs s') = core (rxs s) \/ r_fsm (rxs s') = r_fsm (rxs s) -> innocent t (r_fsm (rxs s'))).
      { intros t s' -> Hc. assert (Hc' : r_fsm (rxs s') = r_fsm (rxs s)) by (destruct Hc as [Hc|Hc]; [unfold core in Hc; congruence|exact Hc]). rewrite Hc'.
        unfold innocent. destruct HH as [HH|HH]; [left; exact HH|right]. exact (within_halfbit _ _ (proj1 HR) HH). }
      rewrite !filter_app in Ef. apply one_of_three in Ef.
      assert (Hs : forall f : bool, r_fsm (rxs (if f then off s else s)) = r_fsm (rxs s)) by (intros []; reflexivity).
      assert (Hc : forall x s1 s2 e, forallb cutout x = true -> run E x s1 = Ok (tt, s2, e) -> r_fsm (rxs s2) = r_fsm (rxs s1)).
      { intros x s1 s2 e K1 K2. pose proof (cutout_fsm E _ _ _ _ K1 K2) as K. unfold core in K. congruence. }
      assert (P : forall h x1 t x2 s', (forall f, f_packet (h f) = f_packet f) -> forallb cutout x1 = true -> forallb cutout x2 = true ->
        (forall s1 e1, run E x1 s' = Ok (tt, s1, e1) -> passes E h [OReceive t] s1) -> passes E h (x1 ++ OReceive t :: x2) s').
      { intros h x1 t x2 s' Hh K1 K2 K. apply passes_app; [exact (passes_cutouts E h x1 s' Hh K1)|]. intros s1 e1 R1.
        change (OReceive t :: x2) with ([OReceive t] ++ x2). apply passes_app; [exact (K _ _ R1)|]. intros s2 e2 _. exact (passes_cutouts E h x2 s2 Hh K2). }
      destruct Ef as [(F3 & F4 & F5)|[(F3 & F4 & F5)|(F3 & F4 & F5)]].
      + destruct (one_receive _ _ H3 F3) as (x1 & t & x2 & -> & -> & K1 & K2). apply only_cutouts in F4, F5; try assumption.
        exists ((x1 ++ OReceive t :: x2) ++ w4 ++ w5), []. split; [rewrite app_nil_r; reflexivity|]. intros f _ s'.
        rewrite (stores_before E _ w4 w5 s').
        * apply bind_eq; [reflexivity|]. intros _ u. cbn [run]. unfold resets, bind, modify, ret. reflexivity.
        * apply P; auto using no_checksum_packet. intros s1 e1 R1. apply passes_receive; [auto|]. apply Hi; [reflexivity|right]. rewrite (Hc _ _ _ _ K1 R1). apply Hs.
        * intros s3 e3 _. split; [exact (passes_cutouts E _ _ _ no_byte_packet F4)|intros s4 e4 _; exact (passes_cutouts E _ _ _ no_count_packet F5)].
      + destruct (one_receive _ _ H4 F4) as (x1 & t & x2 & -> & -> & K1 & K2). apply only_cutouts in F3, F5; try assumption.
        exists (w3 ++ (x1 ++ OReceive t :: x2) ++ w5), []. split; [rewrite app_nil_r; reflexivity|]. intros f _ s'.
        rewrite (stores_before E w3 _ w5 s').
        * apply bind_eq; [reflexivity|]. intros _ u. cbn [run]. unfold resets, bind, modify, ret. reflexivity.
        * exact (passes_cutouts E _ _ _ no_checksum_packet F3).
        * intros s3 e3 R3. split; [|intros s4 e4 _; exact (passes_cutouts E _ _ _ no_count_packet F5)].
          apply P; auto using no_byte_packet. intros s1 e1 R1. apply passes_receive; [auto|]. apply Hi; [reflexivity|right]. rewrite (Hc _ _ _ _ K1 R1), (Hc _ _ _ _ F3 R3). apply Hs.
      + destruct (one_receive _ _ H5 F5) as (x1 & t & x2 & -> & -> & K1 & K2). apply only_cutouts in F3, F4; try assumption.
        assert (D : f_state (r_fsm (rxs s)) = Preamble \/ f_state (r_fsm (rxs s)) <> Preamble) by (destruct (f_state (r_fsm (rxs s))); auto; right; discriminate).
        destruct D as [D|D].
        * exists (w3 ++ w4 ++ x1), (OReceive t :: x2). split; [rewrite <- !app_assoc; reflexivity|]. intros f _ s'.
          apply stores_after; auto. unfold s'. rewrite Hs. exact D.
        * exists (w3 ++ w4 ++ x1 ++ OReceive t :: x2), []. split; [rewrite app_nil_r; reflexivity|]. intros f _ s'.
          rewrite (stores_before E w3 w4 _ s').
          -- apply bind_eq; [reflexivity|]. intros _ u. cbn [run]. unfold resets, bind, modify, ret. reflexivity.
          -- exact (passes_cutouts E _ _ _ no_checksum_packet F3).
          -- intros s3 e3 R3. split; [exact (passes_cutouts E _ _ _ no_byte_packet F4)|]. intros s4 e4 R4.
             apply P; auto using no_count_packet. intros s1 e1 R1.
             assert (Fs : r_fsm (rxs s1) = r_fsm (rxs s)) by (rewrite (Hc _ _ _ _ K1 R1), (Hc _ _ _ _ F4 R4), (Hc _ _ _ _ F3 R3); apply Hs).
             apply passes_receive; [right; right; split; [reflexivity|right; rewrite Fs; exact D]|]. apply Hi; [reflexivity|right; exact Fs].
  Qed.

  Lemma handlers_no_switch : forall os, Forall handler os -> existsb is_switch os = false.
  Proof. induction os as [|o os IH]; intro H; [reflexivity|]. inversion H; subst. destruct o; try contradiction; exact (IH H3). Qed.
  Lemma flag_passes : forall os s, Forall handler os -> run E os (off s) = after_change (set_enabled_flag false) (run E os s).
  Proof. intros os s H. exact (proj1 (free_run E false os (handlers_no_switch os H) s Logic.I)). Qed.
  Lemma listen_on : forall os l, Forall handler os -> l_on (listen_all os l) = l_on l.
  Proof.
    induction os as [|o os IH]; intros l H; [reflexivity|]. inversion H; subst. change (listen_all (o :: os) l) with (listen_all os (listen o l)). rewrite IH by assumption.
    destruct o; try contradiction; cbn [listen]; try reflexivity. destruct (half_bit time); [|reflexivity]. unfold hear.
    destruct (_ && _); [reflexivity|]. destruct (reading _); try reflexivity. destruct (valid_packet _); reflexivity.
  Qed.

  Theorem disable_serial : forall l s w, Rl l s -> l_on l = true -> Forall (Forall handler) w -> harmless l w ->
    exists a b, between_stores w = a ++ b /\
      bind (preempted E disableP w) (fun _ => ret tt) s = run E (before_stores w ++ a ++ ODisable :: b) s.
  Proof.
    intros l s w HR Hon Hw HH.
    assert (HN : forall n, Forall handler (nth n w [])) by (intro n; exact (handler_nth w n Hw)).
    set (w0 := nth 0 w []) in *. set (w1 := nth 1 w []). set (w2 := nth 2 w []). set (w3 := nth 3 w []). set (w4 := nth 4 w []). set (w5 := nth 5 w []).
    assert (HB : Forall handler (before_stores w)) by (unfold before_stores; repeat (apply Forall_app; split); apply HN).
    (* the program *)
    assert (Q : bind (preempted E disableP w) (fun _ => ret tt) s =
      bind (run E w0) (fun _ => bind (gets (fun r => enabled_flag (r_cv r))) (fun e => if negb e then ret tt else
      bind (run E w1) (fun _ => bind (modify (set_enabled_flag false)) (fun _ =>
      bind (run E w2) (fun _ => bind (modify (set_f_checksum 0)) (fun _ => stores E w3 w4 w5)))))) s).
    { rewrite (bind_eq _ _ (preempted E disableP w) (preempted E disableP w) (fun _ => ret tt) (fun o => ret (fst (fst o))) s eq_refl) by (intros [[[] ?] ?] ?; reflexivity).
      change (quietly E disableP w s = bind (run E w0) (fun _ => bind (gets (fun r => enabled_flag (r_cv r))) (fun e => if negb e then ret tt else
      bind (run E w1) (fun _ => bind (modify (set_enabled_flag false)) (fun _ =>
      bind (run E w2) (fun _ => bind (modify (set_f_checksum 0)) (fun _ => stores E w3 w4 w5)))))) s).
      assert (Nt : forall n (v : list (list op)), nth n (tl v) [] = nth (S n) v []) by (intros n [|x v]; destruct n; reflexivity).
      assert (N0 : forall v : list (list op), hd [] v = nth 0 v []) by (intros [|x v]; reflexivity).
      unfold disableP, rd, act. cbn [pbind]. rewrite quietly_act. apply bind_eq; [rewrite N0; reflexivity|]. intros _ s1. apply bind_eq; [reflexivity|]. intros [] s2; cbn [negb]; [|reflexivity].
      unfold resetP, wr, act. cbn [pbind].
      rewrite quietly_act. apply bind_eq; [rewrite N0, !Nt; reflexivity|]. intros _ s3. apply bind_eq; [reflexivity|]. intros _ s4.
      rewrite quietly_act. apply bind_eq; [rewrite N0, !Nt; reflexivity|]. intros _ s5. apply bind_eq; [reflexivity|]. intros _ s6.
      unfold stores.
      rewrite quietly_act. apply bind_eq; [rewrite N0, !Nt; reflexivity|]. intros _ s7. apply bind_eq; [reflexivity|]. intros _ s8.
      rewrite quietly_act. apply bind_eq; [rewrite N0, !Nt; reflexivity|]. intros _ s9. apply bind_eq; [reflexivity|]. intros _ s10.
      rewrite quietly_act. apply bind_eq; [rewrite N0, !Nt; reflexivity|]. intros _ s11.
      unfold bind, modify. rewrite quietly_done. reflexivity. }
    rewrite Q. clear Q.
    (* up to the stores *)
    assert (U : forall c : M (I := I) unit, bind (run E w0) (fun _ => bind (gets (fun r => enabled_flag (r_cv r))) (fun e => if negb e then ret tt else
      bind (run E w1) (fun _ => bind (modify (set_enabled_flag false)) (fun _ => bind (run E w2) (fun _ => c))))) s =
      bind (run E (before_stores w)) (fun _ => bind (modify (set_enabled_flag false)) (fun _ => c)) s).
    { intro c. unfold before_stores. fold w0 w1 w2.
      rewrite (bind_eq _ _ (run E (w0 ++ w1 ++ w2)) (bind (run E w0) (fun _ => bind (run E w1) (fun _ => run E w2))) _ (fun _ => bind (modify (set_enabled_flag false)) (fun _ => c)) s).
      2: { rewrite run_both. apply bind_eq; [reflexivity|]. intros _ s'. apply run_both. }
      2: reflexivity.
      unfold bind. destruct (run E w0 s) as [[[[] s0] e0]|] eqn:R0; [|reflexivity]. unfold gets.
      assert (F0 : enabled_flag (r_cv (rxs s0)) = true).
      { destruct (run_refines E _ _ _ _ _ HR R0) as (_ & _ & _ & K & _). rewrite K, listen_on by apply HN. exact Hon. }
      rewrite F0. cbn [negb]. destruct (run E w1 s0) as [[[[] s1] e1]|] eqn:R1; [|reflexivity]. unfold modify at 1.
      change (Mk_st (set_enabled_flag false (rxs s1)) (app s1) (pending s1)) with (off s1). rewrite flag_passes by apply HN.
      destruct (run E w2 s1) as [[[[] s2] e2]|] eqn:R2; [|reflexivity]. cbn [after_change]. unfold modify.
      change (Mk_st (set_enabled_flag false (rxs s2)) (app s2) (pending s2)) with (off s2). destruct (c (off s2)) as [[[u s3] e3]|]; [|reflexivity].
      cbn [List.app]. rewrite <- !app_assoc. reflexivity. }
    rewrite U. clear U.
    destruct (run E (before_stores w) s) as [[[[] s2] e2]|] eqn:R2.
    2: { exists (between_stores w), []. split; [rewrite app_nil_r; reflexivity|]. rewrite run_both. unfold bind. rewrite R2. reflexivity. }
    assert (HR2 := run_refines E _ _ _ _ _ HR R2).
    destruct (stores_serial w3 w4 w5 _ s2 HR2 (HN _) (HN _) (HN _) HH) as (a & b & Hab & HS).
    exists a, b. split; [exact Hab|]. rewrite run_both. unfold bind at 1. unfold bind at 3. rewrite R2.
    specialize (HS true (or_introl eq_refl)). cbv zeta iota in HS.
    assert (Ha : Forall handler a) by (assert (K : Forall handler (a ++ b)) by (rewrite <- Hab; repeat (apply Forall_app; split); apply HN); apply Forall_app in K; tauto).
    replace (bind (modify (set_enabled_flag false)) (fun _ => bind (modify (set_f_checksum 0)) (fun _ => stores E w3 w4 w5)) s2)
      with (run E (a ++ ODisable :: b) s2); [reflexivity|].
    unfold bind at 1. unfold modify at 1. change (Mk_st (set_enabled_flag false (rxs s2)) (app s2) (pending s2)) with (off s2).
    unfold bind at 1. unfold modify at 1.
    change (Mk_st (set_f_checksum 0 (rxs (off s2))) (app (off s2)) (pending (off s2))) with (changed (on_fsm no_checksum) (off s2)). rewrite HS. clear HS.
    rewrite run_both. unfold bind at 1. unfold bind at 1. rewrite flag_passes by exact Ha.
    destruct (run E a s2) as [[[[] s3] e3]|] eqn:R3; [|reflexivity]. cbn [after_change].
    assert (F3 : enabled_flag (r_cv (rxs s3)) = true).
    { destruct (run_refines E _ _ _ _ _ HR2 R3) as (_ & _ & _ & K & _). rewrite K, listen_on by exact Ha. rewrite listen_on by exact HB. exact Hon. }
    cbn [run step]. unfold resets, bind, modify, disable, reset, get, ret. unfold bind, modify. rewrite F3. cbn [negb].
    change (Mk_st (on_fsm reset_fsm (rxs (off s3))) (app (off s3)) (pending (off s3)))
      with (Mk_st (set_r_fsm (reset_fsm (r_fsm (set_enabled_flag false (rxs s3)))) (set_enabled_flag false (rxs s3))) (app s3) (pending s3)).
    cbn [rxs app pending]. destruct (run E b _) as [[[u s4] e4]|]; reflexivity.
  Qed.
End Serial2.
