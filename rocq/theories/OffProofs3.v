(** What an interrupted disable() may leave behind in the bit receiver. *)
From Verif Require Import Prelude Address Instruction Checksum Datagram RxState Rx RxLogic Comm ZBits SpecCodec CodecProofs SpecRx RxBitProofs RxBitProofs2 ExecProofs SpecModes ModesProofs
  SpecBidi BidiProofs Preempt SpecPreempt PreemptProofs PreemptProofs2 PreemptOff SpecOff OffProofs OffProofs2.

(** Eight bits shift out whatever the register held *)
Definition shin (x : Z) (b : bool) : Z := u8 (Z.lor (Z.shiftl x 1) (Z.b2z b)).
Lemma shin_mod : forall x b, shin x b = (2 * x + Z.b2z b) mod 256.
Proof.
  intros x b. unfold shin, u8. f_equal. rewrite Z.shiftl_mul_pow2 by lia. change (2 ^ 1) with 2. rewrite (Z.mul_comm x 2).
  destruct b; cbn [Z.b2z]; [|rewrite Z.lor_0_r; lia]. 
  apply Z.bits_inj'. intros n Hn. destruct (Z.eq_dec n 0) as [-> |N].
  - rewrite Z.lor_spec, Z.testbit_odd_0, Z.bit0_odd. rewrite orb_true_r. reflexivity.
  - replace n with (Z.succ (n - 1)) by lia. rewrite Z.lor_spec, Z.testbit_odd_succ, Z.testbit_even_succ by lia.
    replace (Z.testbit 1 (Z.succ (n - 1))) with false; [apply orb_false_r|]. change 1 with (2 * 0 + 1). rewrite Z.testbit_odd_succ by lia. rewrite Z.bits_0. reflexivity.
Qed.
Lemma shin_all : forall bits x y, x mod 256 = y mod 256 -> (fold_left shin bits x) mod 256 = (fold_left (fun a b => 2 * a + Z.b2z b) bits y) mod 256.
Proof.
  induction bits as [|b bits IH]; intros x y H; [exact H|]. cbn [fold_left]. apply IH. rewrite shin_mod, Z.mod_mod by lia.
  rewrite (Z.add_mod (2 * x)), (Z.mul_mod 2 x), H, <- Z.mul_mod, <- Z.add_mod by lia. reflexivity.
Qed.
Lemma accumulate : forall bits x, fold_left (fun a b => 2 * a + Z.b2z b) bits x = x * 2 ^ Z.of_nat (length bits) + byte_of bits.
Proof.
  induction bits as [|b bits IH]; intro x; [cbn; lia|]. unfold byte_of. cbn [fold_left length]. rewrite (IH (2 * x + Z.b2z b)), (IH (2 * 0 + Z.b2z b)).
  rewrite Nat2Z.inj_succ, Z.pow_succ_r by lia. lia.
Qed.
Lemma shin_range : forall x b, 0 <= shin x b < 256.
Proof. intros x b. rewrite shin_mod. apply Z.mod_pos_bound. lia. Qed.
Lemma shift_out : forall b7 b6 b5 b4 b3 b2 b1 b0 x,
  fold_left shin [b7; b6; b5; b4; b3; b2; b1; b0] x = byte_of [b7; b6; b5; b4; b3; b2; b1; b0].
Proof.
  intros. assert (R : 0 <= fold_left shin [b7; b6; b5; b4; b3; b2; b1; b0] x < 256) by (cbn [fold_left]; apply shin_range).
  assert (R2 : 0 <= byte_of [b7; b6; b5; b4; b3; b2; b1; b0] < 256) by (destruct b7, b6, b5, b4, b3, b2, b1, b0; vm_compute; split; congruence).
  rewrite <- (Z.mod_small _ _ R), <- (Z.mod_small _ _ R2), (shin_all _ x x eq_refl), accumulate. change (2 ^ Z.of_nat (length [b7; b6; b5; b4; b3; b2; b1; b0])) with 256.
  rewrite Z.add_comm, Z.mod_add by lia. reflexivity.
Qed.
Lemma silent_first_byte : forall b x ck pk, byte b -> byte ck -> (length pk < 18)%nat ->
  silent false (Mk_fsm Data 0 x ck false pk false) (doubled (msb_first b)) (Mk_fsm Endbit 0 0 (Z.lxor ck b) false (pk ++ [b]) false).
Proof.
  intros b x ck pk Hb Hk Hl. pose proof (msb_first_byte_of b Hb) as Hm.
  destruct (msb_first_cons b) as (b7 & b6 & b5 & b4 & b3 & b2 & b1 & b0 & E). rewrite E in Hm |- *.
  change (doubled [b7; b6; b5; b4; b3; b2; b1; b0]) with ([b7; b7] ++ [b6; b6] ++ [b5; b5] ++ [b4; b4] ++ [b3; b3] ++ [b2; b2] ++ [b1; b1] ++ [b0; b0]).
  eapply silent_app; [apply silent_bit; lia|]. eapply silent_app; [apply silent_bit; lia|]. eapply silent_app; [apply silent_bit; lia|]. eapply silent_app; [apply silent_bit; lia|].
  eapply silent_app; [apply silent_bit; lia|]. eapply silent_app; [apply silent_bit; lia|]. eapply silent_app; [apply silent_bit; lia|].
  pose proof (silent_last_bit b0 (fold_left shin [b7; b6; b5; b4; b3; b2; b1] x) ck pk Hl) as H.
  change (u8 (Z.lor (Z.shiftl (fold_left shin [b7; b6; b5; b4; b3; b2; b1] x) 1) (Z.b2z b0))) with (fold_left shin [b7; b6; b5; b4; b3; b2; b1; b0] x) in H.
  rewrite shift_out, Hm in H. replace (u8 (Z.lxor ck b)) with (Z.lxor ck b) in H; [exact H|].
  symmetry. unfold u8. apply Z.mod_small. apply (lxor_byte ck b Hk Hb).
Qed.

Section Left.
  Context {I : Type} (E : Env I).
  Implicit Types s : st I.

  (** A frame after a preamble, when a checksum was left over *)
  Definition taken_state (bs : list Z) s : st I :=
    with_rx (fun r => Mk_rx (Mk_fsm Preamble 0 0 0 false bs true) (r_deque r ++ [bs])
       (Mk_cnts (packet_count (r_cnt r) + 1) (preamble_count (r_cnt r) + 1) (qos (r_cnt r)))
       (upd_received (address_of bs) (r_addrs r)) (r_conf r) (r_logon r) (r_bidi r) (r_cv r) (r_time r)) s.
  Definition refused_state s : st I :=
    with_rx (fun r => Mk_rx (Mk_fsm Preamble 0 0 0 false [] false) (r_deque r)
       (Mk_cnts (packet_count (r_cnt r)) (preamble_count (r_cnt r) + 1) (qos (r_cnt r)))
       (upd_received addr0 (r_addrs r)) (r_conf r) (r_logon r) (r_bidi r) (r_cv r) (r_time r)) s.
  Lemma run_frame : forall bs ts n m x ck hb pk pe s, Forall byte bs -> (3 <= length bs <= 18)%nat -> is_logon bs = false -> byte ck ->
    r_fsm (rxs s) = Mk_fsm Preamble m x ck hb pk pe -> (20 <= m + 2 * n)%nat -> (1 <= n)%nat ->
    (length (r_deque (rxs s)) < 31)%nat -> plays ts n bs ->
    run E (map OReceive ts) s = Ok (tt, if xor_all bs =? ck then taken_state bs s else refused_state s, []).
  Proof.
    intros bs ts n m x ck hb pk pe s Hby Hlen Hlg Hck Hf Hn Hn1 Hd Hp. unfold plays, track_bits in Hp.
    assert (Hfull : full s = false) by (unfold full; apply Nat.eqb_neq; lia).
    destruct bs as [|b bs]; [cbn [length] in Hlen; lia|]. inversion Hby as [|? ? Hb1 Hb2]; subst.
    assert (Hbits : flat_map (fun b => [b; b]) (repeat true n ++ flat_map (fun b => false :: msb_first b) (b :: bs) ++ [true])
       = repeat true (2 * n) ++ [false; false] ++ doubled (msb_first b) ++ doubled (flat_map (fun b => false :: msb_first b) bs) ++ [true; true]).
    { rewrite flat_map_app. f_equal.
      - clear. induction n; [reflexivity|]. cbn [repeat flat_map List.app]. rewrite IHn.
        replace (2 * S n)%nat with (S (S (2 * n))) by lia. reflexivity.
      - cbn [flat_map]. change (doubled (((false :: msb_first b) ++ flat_map (fun b => false :: msb_first b) bs) ++ [true]) = [false; false] ++ doubled (msb_first b) ++ doubled (flat_map (fun b => false :: msb_first b) bs) ++ [true; true]).
        rewrite !doubled_app. rewrite <- app_assoc. reflexivity. }
    rewrite Hbits in Hp. clear Hbits.
    apply map_Some_app_inv in Hp. destruct Hp as (t1 & tr & -> & Hp1 & Hp).
    apply map_Some_app_inv in Hp. destruct Hp as (t2 & tr2 & -> & Hp2 & Hp).
    apply map_Some_app_inv in Hp. destruct Hp as (t3 & tr3 & -> & Hp3 & Hp).
    apply map_Some_app_inv in Hp. destruct Hp as (t4 & t5 & -> & Hp4 & Hp5).
    rewrite !map_app.
    rewrite (run_ops_app E (map OReceive t1) _ s (with_fsm (Mk_fsm Preamble (m + 2 * n) x ck hb pk false) s) []).
    2: { apply (run_silent E (repeat true (2 * n))); [exact Hp1|]. rewrite Hfull, Hf. apply (silent_ones (2 * n) m); auto; lia. }
    destruct t2 as [|ta [|tb [|]]]; try discriminate. cbn in Hp2.
    assert (Ha : half_bit ta = Some false) by congruence. assert (Hb : half_bit tb = Some false) by congruence. clear Hp2.
    set (s2 := with_rx (fun r => set_preamble_count (preamble_count (r_cnt r) + 1) (set_r_fsm (Mk_fsm Data 0 x ck false [] false) r)) s).
    rewrite (run_ops_app E (map OReceive [ta; tb]) _ _ s2 []).
    2: { cbn [map]. rewrite run_receive_cons with (u := tt) (s1 := with_fsm (Mk_fsm Startbit (m + 2 * n) x ck hb pk false) s) (e1 := []).
         2: { rewrite receive_machine, (machine_some _ _ _ _ Ha). change (full (with_fsm (Mk_fsm Preamble (m + 2 * n) x ck hb pk false) s)) with (full s). rewrite Hfull. unfold machine_hb, machine_bit.
              cbn -[Nat.ltb Nat.mul]. replace (m + 2 * n <? 20)%nat with false by (symmetry; apply Nat.ltb_ge; lia). destruct s as [[] i p]. reflexivity. }
         rewrite run_receive_cons with (u := tt) (s1 := s2) (e1 := []); [reflexivity|].
         rewrite receive_machine, (machine_some _ _ _ _ Hb). change (full (with_fsm (Mk_fsm Startbit (m + 2 * n) x ck hb pk false) s)) with (full s). rewrite Hfull.
         unfold machine_hb, machine_bit. destruct s as [[] i p]. reflexivity. }
    assert (Hfull2 : full s2 = false) by (destruct s as [[] i p]; exact Hfull).
    rewrite (run_ops_app E (map OReceive t3) _ s2 (with_fsm (Mk_fsm Endbit 0 0 (Z.lxor ck b) false ([] ++ [b]) false) s2) []).
    2: { apply (run_silent E (doubled (msb_first b))); [exact Hp3|]. rewrite Hfull2. apply silent_first_byte; [exact Hb1|exact Hck|cbn [length]; lia]. }
    set (c := Z.lxor (Z.lxor ck b) (xor_all bs)).
    rewrite (run_ops_app E (map OReceive t4) _ _ (with_fsm (Mk_fsm Endbit 0 0 c false (b :: bs) false) s2) []).
    2: { rewrite (run_silent E (doubled (flat_map (fun b => false :: msb_first b) bs)) t4 (Mk_fsm Endbit 0 0 c false (([] ++ [b]) ++ bs) false));
           [destruct s2 as [[] i p]; reflexivity|exact Hp4|].
         change (full (with_fsm (Mk_fsm Endbit 0 0 (Z.lxor ck b) false ([] ++ [b]) false) s2)) with (full s2).
         rewrite Hfull2. apply silent_bytes; [exact Hb2|exact (lxor_byte ck b Hck Hb1)|]. cbn [List.app length] in *. lia. }
    destruct t5 as [|tc [|td [|]]]; try discriminate. cbn in Hp5.
    assert (Hc : half_bit tc = Some true) by congruence. assert (Hd' : half_bit td = Some true) by congruence. cbn [map].
    rewrite run_receive_cons with (u := tt) (s1 := with_fsm (Mk_fsm Endbit 0 0 c true (b :: bs) false) s2) (e1 := []).
    2: { rewrite receive_machine, (machine_some _ _ _ _ Hc). destruct s2 as [[] i p]. reflexivity. }
    assert (Hcc : (c =? 0) = (xor_all (b :: bs) =? ck)).
    { unfold c. rewrite Z.lxor_assoc. change (Z.lxor b (xor_all bs)) with (xor_all (b :: bs)).
      destruct (xor_all (b :: bs) =? ck) eqn:Ex; [apply Z.eqb_eq in Ex; rewrite Ex, Z.lxor_nilpotent; reflexivity|].
      apply Z.eqb_neq in Ex. apply Z.eqb_neq. intro K. apply Ex. apply Z.lxor_eq in K. congruence. }
    assert (Hmb : machine_hb false (r_fsm (rxs (with_fsm (Mk_fsm Endbit 0 0 c true (b :: bs) false) s2))) true
            = if xor_all (b :: bs) =? ck then (Mk_fsm Endbit 0 0 c false (b :: bs) false, AAccept) else (Mk_fsm Preamble 0 0 0 false [] false, AReject)).
    { unfold machine_hb, machine_bit. cbn -[Nat.leb length Z.eqb xor_all]. rewrite Hcc.
      replace (3 <=? length (b :: bs))%nat with true by (symmetry; apply Nat.leb_le; lia). destruct (xor_all (b :: bs) =? ck); reflexivity. }
    rewrite run_receive_cons with (u := tt) (s1 := if xor_all (b :: bs) =? ck then taken_state (b :: bs) s else refused_state s) (e1 := []); [reflexivity|].
    rewrite receive_machine, (machine_some _ _ _ _ Hd'). change (full (with_fsm (Mk_fsm Endbit 0 0 c true (b :: bs) false) s2)) with (full s2). rewrite Hfull2, Hmb.
    destruct (xor_all (b :: bs) =? ck) eqn:Ex; [|destruct s as [[] i p]; reflexivity].
    rewrite accept_ordinary; unfold with_fsm; cbn [rxs r_fsm set_r_fsm f_packet r_deque]; auto.
    cbn [length] in *. lia.
  Qed.

  (** The checksum is a byte at all times *)
  Definition sound (f : fsm) : Prop := byte (f_checksum f).
  Lemma machine_bit_sound : forall fl f b, sound f -> sound (fst (machine_bit fl f b)).
  Proof.
    intros fl [ph bc by_ ck hb pk pe] b H1. unfold sound in *. cbn in H1. unfold machine_bit.
    assert (H0 : byte 0) by (split; lia).
    destruct fl; [exact H0|]. cbn [f_state f_bit_count f_byte f_checksum f_is_halfbit f_packet f_packet_end].
    destruct ph.
    - destruct b; [exact H1|]. destruct (_ <? _)%nat; assumption.
    - exact H1.
    - destruct (_ <? _)%nat; [exact H1|]. destruct (_ <? _)%nat; [|exact H1]. cbn [fst f_checksum]. unfold byte, u8. apply Z.mod_pos_bound. lia.
    - destruct (negb b); [exact H1|]. destruct (_ && _); [exact H1|exact H0].
  Qed.
  Lemma machine_sound : forall fl f t, sound f -> sound (fst (machine fl f t)).
  Proof.
    intros fl f t H. unfold machine. assert (H' : sound (upd_f_packet_end false f)) by exact H. destruct (half_bit t); [|exact H'].
    destruct (f_state _); try (apply machine_bit_sound; exact H').
    all: assert (H'' : sound (upd_f_is_halfbit (negb (f_is_halfbit (upd_f_packet_end false f))) (upd_f_packet_end false f))) by exact H';
      cbv zeta; match goal with |- context [if ?c then _ else machine_bit _ _ _] => destruct c end; [exact H''|apply machine_bit_sound; exact H''].
  Qed.
  Lemma receive_sound : forall t s s' es, sound (r_fsm (rxs s)) -> receive E t s = Ok (tt, s', es) -> sound (r_fsm (rxs s')).
  Proof.
    intros t s s' es Hs H. rewrite receive_machine in H. pose proof (machine_sound (full s) _ t Hs) as K.
    destruct (machine (full s) (r_fsm (rxs s)) t) as [f a]. cbn [fst] in K. destruct a; try (inversion H; subst; exact K); try discriminate.
    unfold accept in H. apply bind_inv in H. destruct H as (u & s1 & e1 & e2 & H1 & H2 & ->). 
    inversion H2; subst. unfold sound. cbn. split; lia.
  Qed.
  Lemma run_sound : forall os s s' es, Forall handler os -> sound (r_fsm (rxs s)) -> run E os s = Ok (tt, s', es) -> sound (r_fsm (rxs s')).
  Proof.
    induction os as [|o os IH]; intros s s' es Ho Hs H; [inversion H; subst; exact Hs|]. inversion Ho; subst.
    cbn [run] in H. apply bind_inv in H. destruct H as (b & s1 & e1 & e2 & K1 & K2 & ->). apply (IH _ _ _ H3) in K2; [exact K2|].
    destruct o; try contradiction; cbn [step] in K1; apply bind_inv in K1; destruct K1 as (u & s2 & e3 & e4 & K3 & K4 & _); inversion K4; subst.
    - destruct u. exact (receive_sound _ _ _ _ Hs K3).
    - apply core_biDi1 in K3. unfold core in K3. injection K3 as K3 _ _. rewrite K3. exact Hs.
    - apply core_biDi2 in K3. unfold core in K3. injection K3 as K3 _ _. rewrite K3. exact Hs.
  Qed.

  Lemma Inv_sound : forall h f, Inv h f -> sound f.
  Proof.
    intros h f H. unfold Inv in H. unfold sound. assert (H0 : byte 0) by (split; lia). 
    assert (X : forall p, Forall byte p -> byte (xor_all p)).
    { induction p as [|b p IH]; intro K; [exact H0|]. inversion K; subst. change (xor_all (b :: p)) with (Z.lxor b (xor_all p)). apply lxor_byte; auto. }
    destruct (f_state f).
    - destruct H as (_ & _ & ->). exact H0.
    - destruct H as (_ & -> & _). exact H0.
    - destruct H as (K & _ & -> & _). exact (X _ K).
    - destruct H as (K & _ & -> & _). exact (X _ K).
  Qed.

  (** Whatever interrupts it *)
  Lemma disable_left : forall s w o s' es, sound (r_fsm (rxs s)) -> enabled_flag (r_cv (rxs s)) = true -> Forall (Forall handler) w ->
    (forall os s1 s2 e, Forall handler os -> run E os s1 = Ok (tt, s2, e) -> enabled_flag (r_cv (rxs s2)) = enabled_flag (r_cv (rxs s1))) ->
    preempted E disableP w s = Ok (o, s', es) -> f_state (r_fsm (rxs s')) = Preamble /\ sound (r_fsm (rxs s')).
  Proof.
    intros s w o s' es Hs Hon Hw Hfl H.
    assert (HD : forall v, Forall (Forall handler) v -> Forall handler (hd [] v) /\ Forall (Forall handler) (tl v)) by (intros [|x v] K; [split; constructor|inversion K; auto]).
    unfold disableP, rd, act in H. cbn [pbind] in H. apply preempted_inv in H. destruct H as (s1 & e1 & b & s2 & e2 & a & sn & sv & e3 & R1 & S1 & H & _ & _).
    inversion S1; subst. rewrite (Hfl _ _ _ _ (proj1 (HD _ Hw)) R1), Hon in H. cbn [negb] in H.
    pose proof (run_sound _ _ _ _ (proj1 (HD _ Hw)) Hs R1) as Q1. apply HD in Hw. destruct Hw as [_ Hw]. clear Hs Hon R1 S1.
    unfold resetP, wr, act in H. cbn [pbind] in H.
    assert (N : forall (f : rx -> rx) (k : unit -> prog unit) v u oo x ee, preempted E (Act unit (modify f) k) v u = Ok (oo, x, ee) -> Forall (Forall handler) v -> sound (r_fsm (rxs u)) ->
      exists y a' sn' sv' e', preempted E (k tt) (tl v) (Mk_st (f (rxs y)) (app y) (pending y)) = Ok ((a', sn', sv'), x, e') /\ sound (r_fsm (rxs y)) /\ Forall (Forall handler) (tl v)).
    { intros f k v u oo x ee K Kv Ku. apply preempted_inv in K. destruct K as (y & ? & bb & z & ? & a' & sn' & sv' & e' & K1 & K2 & K3 & _ & _). inversion K2; subst.
      exists y, a', sn', sv', e'. split; [exact K3|]. destruct (HD _ Kv) as [Ka Kb]. split; [exact (run_sound _ _ _ _ Ka Ku K1)|exact Kb]. }
    apply N in H; [|exact Hw|exact Q1]. clear Hw. destruct H as (y1 & a1 & sn1 & sv1 & e4 & H & Y1 & Hw).
    apply N in H; [|exact Hw|exact Y1]. clear Hw. destruct H as (y2 & a2 & sn2 & sv2 & e5 & H & Y2 & Hw).
    apply N in H; [|exact Hw|unfold sound; cbn; split; lia]. clear Hw. destruct H as (y3 & a3 & sn3 & sv3 & e6 & H & Y3 & Hw).
    apply N in H; [|exact Hw|exact Y3]. clear Hw. destruct H as (y4 & a4 & sn4 & sv4 & e7 & H & Y4 & Hw).
    apply N in H; [|exact Hw|exact Y4]. clear Hw. destruct H as (y5 & a5 & sn5 & sv5 & e8 & H & Y5 & Hw).
    cbn [preempted] in H. inversion H; subst. split; [reflexivity|exact Y5].
  Qed.
  Theorem disable_next : forall l s w o s' es, Rl l s -> l_on l = true -> Forall (Forall handler) w ->
    preempted E disableP w s = Ok (o, s', es) ->
    exists c, byte c /\ forall bs1 n1 ts1 bs2 n2 ts2, Forall byte bs1 -> (3 <= length bs1 <= 18)%nat -> is_logon bs1 = false -> (10 <= n1)%nat -> plays ts1 n1 bs1 ->
      packet_ok bs2 -> (10 <= n2)%nat -> plays ts2 n2 bs2 -> (length (r_deque (rxs s')) <= 29)%nat ->
      exists s'', run E (map OReceive (ts1 ++ ts2)) s' = Ok (tt, s'', []) /\
        r_deque (rxs s'') = r_deque (rxs s') ++ (if xor_all bs1 =? c then [bs1] else []) ++ [bs2].
  Proof.
    intros l s w o s' es HR Hon Hw H.
    assert (Hfl : forall os s1 s2 e, Forall handler os -> run E os s1 = Ok (tt, s2, e) -> enabled_flag (r_cv (rxs s2)) = enabled_flag (r_cv (rxs s1))).
    { intros os s1 s2 e Ho K. destruct (free_run E (enabled_flag (r_cv (rxs s1))) os (handlers_no_switch os Ho) s1 Logic.I) as [F _].
      assert (Z1 : changed (set_enabled_flag (enabled_flag (r_cv (rxs s1)))) s1 = s1) by (destruct s1 as [[f dq cnt ad cf lg bd [] tm] i pd]; reflexivity).
      rewrite Z1, K in F. cbn [after_change] in F. injection F as F. rewrite F at 1. reflexivity. }
    destruct HR as (HI & _ & _ & Ho & _).
    destruct (disable_left s w o s' es (Inv_sound _ _ HI) (eq_trans Ho Hon) Hw Hfl H) as [P C].
    exists (f_checksum (r_fsm (rxs s'))). split; [exact C|]. intros bs1 n1 ts1 bs2 n2 ts2 K1 K2 K3 K4 K5 K6 K7 K8 K9.
    destruct (r_fsm (rxs s')) as [ph m x ck hb pk pe] eqn:Ef. cbn in P. subst ph. cbn [f_checksum] in *.
    pose proof (run_frame bs1 ts1 n1 m x ck hb pk pe s' K1 K2 K3 C Ef ltac:(lia) ltac:(lia) ltac:(lia) K5) as R1.
    rewrite map_app. rewrite (run_ops_app E _ _ _ _ _ R1).
    destruct (xor_all bs1 =? ck).
    - rewrite (run_packet E bs2 ts2 n2 0 false bs1 true (taken_state bs1 s') K6); [|reflexivity|lia|lia| |exact K8].
      + eexists. split; [reflexivity|]. cbn. rewrite <- app_assoc. reflexivity.
      + cbn. rewrite app_length. cbn [length]. lia.
    - rewrite (run_packet E bs2 ts2 n2 0 false [] false (refused_state s') K6); [|reflexivity|lia|lia| |exact K8].
      + eexists. split; [reflexivity|]. reflexivity.
      + cbn. lia.
  Qed.

  (** enable(), and disable() of a disabled decoder, whatever interrupts them *)
  Lemma flag_any : forall b os s, Forall handler os -> run E os (changed (set_enabled_flag b) s) = after_change (set_enabled_flag b) (run E os s).
  Proof. intros b os s H. exact (proj1 (free_run E b os (handlers_no_switch os H) s Logic.I)). Qed.
  Theorem enable_serial : forall l s w, Rl l s -> Forall (Forall handler) w ->
    bind (preempted E enableP w) (fun _ => ret tt) s = run E (nth 0 w [] ++ (if l_on l then [] else nth 1 w []) ++ [OEnable]) s.
  Proof.
    intros l s w HR Hw. assert (HN : forall n, Forall handler (nth n w [])) by (intro n; exact (handler_nth w n Hw)).
    rewrite (bind_eq _ _ (preempted E enableP w) (preempted E enableP w) (fun _ => ret tt) (fun o => ret (fst (fst o))) s eq_refl) by (intros [[[] ?] ?] ?; reflexivity).
    change (quietly E enableP w s = run E (nth 0 w [] ++ (if l_on l then [] else nth 1 w []) ++ [OEnable]) s).
    unfold enableP, rd, act. cbn [pbind]. rewrite quietly_act, run_both. replace (hd [] w) with (nth 0 w []) by (destruct w; reflexivity).
    unfold bind at 1. unfold bind at 2. destruct (run E (nth 0 w []) s) as [[[[] s0] e0]|] eqn:R0; [|reflexivity].
    assert (F0 : enabled_flag (r_cv (rxs s0)) = l_on l).
    { destruct (run_refines E _ _ _ _ _ HR R0) as (_ & _ & _ & K & _). rewrite K. apply listen_on. apply HN. }
    unfold bind at 1. unfold gets at 1. rewrite F0. destruct (l_on l) eqn:El.
    - cbn [quietly]. rewrite quietly_done. cbn [List.app run step]. unfold enable, bind, get, ret, modify. rewrite F0. reflexivity.
    - unfold wr, act. rewrite quietly_act, run_both. replace (hd [] (tl w)) with (nth 1 w []) by (destruct w as [|? []]; reflexivity).
      unfold bind at 1. unfold bind at 2. destruct (run E (nth 1 w []) s0) as [[[[] s1] e1]|] eqn:R1; [|reflexivity].
      assert (F1 : enabled_flag (r_cv (rxs s1)) = false).
      { destruct (run_refines E _ _ _ _ _ (run_refines E _ _ _ _ _ HR R0) R1) as (_ & _ & _ & K & _). rewrite K, listen_on, listen_on by apply HN. exact El. }
      unfold bind at 1. unfold modify at 1. rewrite quietly_done. cbn [run step]. unfold enable, bind, get, ret, modify. rewrite F1. reflexivity.
  Qed.
  Theorem disable_off : forall l s w, Rl l s -> Forall (Forall handler) w -> l_on l = false ->
    bind (preempted E disableP w) (fun _ => ret tt) s = run E (nth 0 w [] ++ [ODisable]) s.
  Proof.
    intros l s w HR Hw El. assert (HN : forall n, Forall handler (nth n w [])) by (intro n; exact (handler_nth w n Hw)).
    rewrite (bind_eq _ _ (preempted E disableP w) (preempted E disableP w) (fun _ => ret tt) (fun o => ret (fst (fst o))) s eq_refl) by (intros [[[] ?] ?] ?; reflexivity).
    change (quietly E disableP w s = run E (nth 0 w [] ++ [ODisable]) s).
    unfold disableP, rd, act. cbn [pbind]. rewrite quietly_act, run_both. replace (hd [] w) with (nth 0 w []) by (destruct w; reflexivity).
    unfold bind at 1. unfold bind at 2. destruct (run E (nth 0 w []) s) as [[[[] s0] e0]|] eqn:R0; [|reflexivity].
    assert (F0 : enabled_flag (r_cv (rxs s0)) = false).
    { destruct (run_refines E _ _ _ _ _ HR R0) as (_ & _ & _ & K & _). rewrite K, listen_on by apply HN. exact El. }
    unfold bind at 1. unfold gets at 1. rewrite F0. cbn [negb]. rewrite quietly_done. cbn [run step]. unfold disable, bind, get, ret, modify. rewrite F0. reflexivity.
  Qed.
End Left.
