(** CV access by packets: register mode, acknowledgement and targets *)
From Verif Require Import Prelude Address Instruction Datagram ZBits SpecCodec RxState Rx CodecProofs CodecProofs2 RxLogic SpecRx RxBitProofs
  RxBitProofs3 RxBitProofs4 SpecExec ExecProofs SpecConf ConfProofs ConfProofs2 SpecCv CvProofs CvProofs2 CvProofs3 CvProofs4 CvProofs5 CvProofs6.
Local Ltac Zify.zify_post_hook ::= Z.div_mod_to_equations.

Lemma acks_app : forall a b, acks_of (a ++ b) = (acks_of a + acks_of b)%nat.
Proof. intros a b. unfold acks_of. rewrite filter_app, app_length. reflexivity. Qed.
Lemma confirmations_app : forall a b, confirmations (a ++ b) = (confirmations a + confirmations b)%nat.
Proof. intros a b. unfold confirmations. rewrite filter_app, app_length. reflexivity. Qed.
Lemma confirmations_le : forall es, (confirmations es <= length (accesses es))%nat.
Proof.
  induction es as [|e es IH]; [apply le_n|]. change (e :: es) with ([e] ++ es).
  rewrite confirmations_app, accesses_app, app_length. apply Nat.add_le_mono; [|exact IH].
  unfold confirmations. destruct e; cbn; try lia;
    match goal with |- context [if ?b then _ else _] => destruct b end; cbn; lia.
Qed.

Section Page.
  Context {I : Type} (E : Env I).
  Implicit Types s : st I.

  Definition pagef (r : rx) := index_reg (r_cv r).

  Lemma register_page : forall b0 b1 t s u s' es, byte b0 -> registerMode E (b0 :: b1 :: t) s = Ok (u, s', es) ->
    page s' = if b0 mod 16 =? 13 then b1 else page s.
  Proof.
    intros b0 b1 t s u s' es H0 H. unfold byte in H0. unfold registerMode in H. cbn [at_ nth_error] in H.
    rewrite bind_ret, bind_get in H. cbv zeta in H. rewrite land_7, testbit_bit in H by lia.
    assert (K : forall (f : M (I := I) unit), keeps pagef f -> f s = Ok (u, s', es) -> page s' = page s)
      by (intros f Hf Hx; exact (Hf _ _ _ _ Hx)).
    assert (Hbit : bit_of b0 3 = (8 <=? b0 mod 16)).
    { unfold bit_of. change (2 ^ 3) with 8. destruct (Z.leb_spec 8 (b0 mod 16));
        [apply Z.odd_spec; exists (b0 / 16)|rewrite <- Z.negb_even; apply negb_false_iff, Z.even_spec; exists (b0 / 16)]; lia. }
    rewrite Hbit in H. clear Hbit.
    assert (Hw : (b0 mod 16 =? 13) = (8 <=? b0 mod 16) && (b0 mod 8 =? 5)).
    { destruct (Z.eqb_spec (b0 mod 16) 13), (Z.leb_spec 8 (b0 mod 16)), (Z.eqb_spec (b0 mod 8) 5); cbn [andb]; lia. }
    rewrite Hw. clear Hw.
    destruct (b0 mod 8 <=? 3) eqn:E3.
    { replace (b0 mod 8 =? 5) with false by lia. rewrite andb_false_r. rewrite bind_ret in H.
      match type of H with ?f s = _ => apply (K f); [keeps_tac|exact H] end. }
    destruct (b0 mod 8 =? 4) eqn:E4.
    { replace (b0 mod 8 =? 5) with false by lia. rewrite andb_false_r. rewrite bind_ret in H.
      match type of H with ?f s = _ => apply (K f); [keeps_tac|exact H] end. }
    destruct (b0 mod 8 =? 5).
    - rewrite bind_ret in H. rewrite andb_true_r. destruct (8 <=? b0 mod 16).
      + unfold modify in H. assert (s' = Mk_st (set_index_reg b1 (rxs s)) (app s) (pending s)) as -> by congruence. reflexivity.
      + match type of H with ?f s = _ => apply (K f); [keeps_tac|exact H] end.
    - rewrite andb_false_r. rewrite bind_ret in H. match type of H with ?f s = _ => apply (K f); [keeps_tac|exact H] end.
  Qed.

  Lemma service_inv : forall p q s u s' es, Forall byte p -> r_deque (rxs s) = p :: q ->
    executeService E s = Ok (u, s', es) -> 0x70 <= hd 0 p < 0x80 ->
    (length p = 3%nat -> registerMode E p s = Ok (tt, s', es)) /\
    (length p = 4%nat -> cvLong E 0 p s = Ok (tt, s', es)) /\
    (length p <> 3%nat -> length p <> 4%nat -> s' = s /\ es = []).
  Proof.
    intros p q s u s' es Hb Hd H H7. unfold executeService in H. rewrite bind_get, Hd, bind_ret in H.
    destruct p as [|p0 p]; [cbn in H7; lia|]. inversion Hb as [|? ? Hb0 _]; subst. cbn [hd] in H7.
    cbn [at_ nth_error] in H. rewrite bind_ret in H.
    apply bind_inv in H. destruct H as ([] & s3 & e3 & e4 & E1 & E2 & ->).
    unfold ret in E2. assert (s' = s3) as -> by congruence. assert (e4 = []) as -> by congruence. rewrite app_nil_r. clear E2.
    rewrite land_F0 in E1 by exact Hb0. replace (p0 =? 0) with false in E1 by lia.
    replace (16 * (p0 / 16) =? 112) with true in E1 by lia. cbn [negb] in E1.
    destruct (Nat.eqb_spec (length (p0 :: p)) 3); [split; [intros; exact E1|split; intros; congruence]|].
    destruct (Nat.eqb_spec (length (p0 :: p)) 4); [split; [intros; congruence|split; [intros; exact E1|intros; congruence]]|].
    split; [congruence|]. split; [congruence|]. intros _ _. unfold ret in E1. split; congruence.
  Qed.
  Lemma service_other : forall p q s u s' es, Forall byte p -> (3 <= length p)%nat -> r_deque (rxs s) = p :: q ->
    executeService E s = Ok (u, s', es) -> ~ 0x70 <= hd 0 p < 0x80 ->
    accesses es = [] /\ acks_of es = 0%nat /\ confirmations es = 0%nat /\ page s' = page s.
  Proof.
    intros p q s u s' es Hb Hl Hd H H7. unfold executeService in H. rewrite bind_get, Hd, bind_ret in H.
    destruct p as [|p0 p]; [cbn in Hl; lia|]. inversion Hb as [|? ? Hb0 _]; subst. cbn [hd] in H7.
    cbn [at_ nth_error] in H. rewrite bind_ret in H.
    apply bind_inv in H. destruct H as ([] & s3 & e3 & e4 & E1 & E2 & ->).
    unfold ret in E2. assert (s' = s3) as -> by congruence. assert (e4 = []) as -> by congruence. rewrite app_nil_r. clear E2.
    rewrite land_F0 in E1 by exact Hb0. unfold byte in Hb0. destruct (p0 =? 0).
    { unfold ret in E1. assert (s3 = s) as -> by congruence. assert (e3 = []) as -> by congruence. auto. }
    replace (16 * (p0 / 16) =? 112) with false in E1 by lia. cbn [negb] in E1.
    destruct (serviceMode_ok E false s) as (s2 & H1 & H2).
    assert (page s3 = page s) by (assert (keeps pagef (serviceMode E false)) as Kp by keeps_tac; exact (Kp _ _ _ _ E1)).
    rewrite H1 in E1. assert (e3 = [EServiceModeHook false]) as -> by congruence. auto.
  Qed.

  Lemma pagef_dyn_all : forall ds, keeps pagef (@dyn_all I ds).
  Proof. induction ds as [|d ds IH]; [keeps_tac|]. apply keeps_bind; [keeps_tac|intros _; exact IH]. Qed.
  Lemma pagef_datagram : forall ds, keeps pagef (@datagram I ds).
  Proof.
    intros ds. unfold datagram. apply keeps_bind; [apply keeps_get|intros r]. apply keeps_bind; [keeps_tac|intros _].
    apply keeps_bind; [apply keeps_get|intros r']. destruct (block_dyn (r_bidi r')); [apply keeps_ret|apply pagef_dyn_all].
  Qed.

  Lemma pagef_dispatch : forall n bs, keeps pagef (dispatch E n bs).
  Proof. intros n bs. keeps_tac. Qed.

  Lemma page_step : forall s o b s' es, reached E s -> byte (page s) -> step E o s = Ok (b, s', es) -> byte (page s').
  Proof.
    intros s o b s' es Hre Hp H.
    assert (K : forall (f : M (I := I) unit), keeps pagef f -> bind f (fun _ => ret false) s = Ok (b, s', es) -> byte (page s')).
    { intros f Hf Hx. assert (keeps pagef (bind f (fun _ => ret false))) as Kb by (apply keeps_bind; [exact Hf|intros; apply keeps_ret]).
      pose proof (Kb _ _ _ _ Hx) as Y. unfold pagef in Y. unfold page. rewrite Y. exact Hp. }
    destruct o; cbn [step] in H.
    - apply (K (init E)); [keeps_tac|exact H].
    - apply (K enable); [keeps_tac|exact H].
    - apply (K disable); [keeps_tac|exact H].
    - apply (K (receive E time)); [keeps_tac|exact H].
    - destruct (execute_cases E s b s' es Hre H) as [(-> & -> & -> & Hno)|(p & q & s1 & s2 & e1 & e2 & Hr & Hb & Hl & Hk & Hpe & Hs & -> & -> & Hd1 & Hc & Hcase)].
      { exact Hp. }
      change (page (pop q s2)) with (page s2).
      assert (page s1 = page s) as Hp1 by (unfold hk in Hk; unfold page; congruence).
      destruct Hcase as [(Hsv & u & Hx)|[(Hsv & Hf & _ & n & u & Ha & Hx)|(Hsv & Hno & -> & -> & _)]].
      + assert (Hd : 0x70 <= hd 0 p < 0x80 \/ ~ 0x70 <= hd 0 p < 0x80) by lia. destruct Hd as [H7|H7].
        2: { destruct (service_other p q s1 u s2 e2 Hb Hl Hd1 Hx H7) as (_ & _ & _ & ->). congruence. }
        destruct (service_inv p q s1 u s2 e2 Hb Hd1 Hx H7) as (A & B & C).
        destruct (Nat.eq_dec (length p) 3) as [L3|L3].
        { specialize (A L3). destruct p as [|b0 [|b1 t]]; try discriminate. inversion Hb as [|? ? H0 Hb']; subst. inversion Hb' as [|? ? H1 _]; subst.
          rewrite (register_page _ _ _ _ _ _ _ H0 A). destruct (b0 mod 16 =? 13); [exact H1|congruence]. }
        destruct (Nat.eq_dec (length p) 4) as [L4|L4].
        { assert (keeps pagef (cvLong E 0 p)) as Kc by keeps_tac. pose proof (Kc _ _ _ _ (B L4)) as Y.
          unfold pagef in Y. unfold page in *. rewrite Y, Hp1. exact Hp. }
        destruct (C L3 L4) as [-> _]. congruence.
      + pose proof (pagef_dispatch _ _ _ _ _ _ Hx) as Y. unfold pagef in Y. unfold page in *. rewrite Y, Hp1. exact Hp.
      + congruence.
    - apply (K _ (pagef_datagram ds) H).
    - apply (K (biDiChannel1 E)); [keeps_tac|exact H].
    - apply (K (biDiChannel2 E)); [keeps_tac|exact H].
    - destruct (nth_error (pending s) i) as [c|]; [|assert (s' = s) as -> by congruence; exact Hp].
      apply (K (run_cb E c v)); [keeps_tac|exact H].
  Qed.

  Lemma page_byte : forall s, reached E s -> byte (page s).
  Proof.
    intros s (i & os & es & H). revert s es H. induction os as [|o os IH] using rev_ind; intros s es H.
    - cbn [run] in H. unfold ret in H. assert (s = st0 i) as -> by congruence. cbn. unfold byte. lia.
    - apply run_app in H. destruct H as (s1 & e1 & e2 & H1 & H2 & ->). specialize (IH _ _ H1).
      cbn [run] in H2. apply bind_inv in H2. destruct H2 as (b & s2 & e3 & e4 & H2 & H3 & ->).
      cbn [run] in H3. unfold ret in H3. assert (s2 = s) as -> by congruence. clear H3.
      apply (page_step s1 o b s e3); [exists i, os, e1; exact H1|exact IH|exact H2].
  Qed.

  Lemma register_acc : forall b0 b1 t s u s' es, byte b0 -> byte b1 -> byte (page s) ->
    registerMode E (b0 :: b1 :: t) s = Ok (u, s', es) ->
    accesses es = filter (permitted (locked s))
      (if (page s =? 0) && (b0 mod 8 <? 4)
       then [(if bit_of b0 3 then Store else Check) (2 ^ 32 - 4 + b0 mod 8) b1]
       else register_request (page s) b0 b1).
  Proof.
    intros b0 b1 t s u s' es H0 H1 Hp H. unfold byte in H0, H1, Hp. unfold registerMode in H. cbn [at_ nth_error] in H.
    rewrite bind_ret, bind_get in H. cbv zeta in H. rewrite land_7, testbit_bit in H by lia.
    change (index_reg (r_cv (rxs s))) with (page s) in H.
    assert (K : forall a, (if bit_of b0 3 then cvWrite E a b1 else cvVerify E a b1) s = Ok (u, s', es) ->
      accesses es = filter (permitted (locked s)) [(if bit_of b0 3 then Store else Check) a b1]).
    { intros a Hx. destruct (bit_of b0 3); [exact (cvWrite_acc E _ _ _ _ _ _ Hx)|exact (cvVerify_acc E _ _ _ _ _ _ Hx)]. }
    unfold register_request, register_cv.
    assert (Hreg : 0 <= b0 mod 8 < 8) by (apply Z.mod_pos_bound; lia). remember (b0 mod 8) as reg eqn:Hdef in *. clear Hdef.
    destruct (Z.leb_spec reg 3).
    - rewrite bind_ret in H. apply K in H. rewrite H. f_equal.
      replace (reg <? 4) with true by lia. replace (reg =? 5) with false by lia. rewrite andb_true_r.
      destruct (Z.eqb_spec (page s) 0) as [->|Hne].
      + f_equal. f_equal. unfold u32. replace (0 * 4 - (4 - reg)) with ((2 ^ 32 - 4 + reg) + (-1) * 2 ^ 32) by lia.
        rewrite Z.mod_add, Z.mod_small by lia. reflexivity.
      + unfold u32. rewrite Z.mod_small by lia. replace (page s * 4 - (4 - reg)) with (4 * (page s - 1) + reg) by lia.
        destruct (bit_of b0 3); reflexivity.
    - replace (reg <? 4) with false by lia. rewrite andb_false_r.
      destruct (Z.eqb_spec reg 4) as [H4|H4].
      + replace (reg =? 5) with false by lia. rewrite bind_ret in H. apply K in H. rewrite H. destruct (bit_of b0 3); reflexivity.
      + destruct (Z.eqb_spec reg 5) as [H5|H5].
        * rewrite bind_ret in H. cbn [filter]. destruct (bit_of b0 3).
          -- unfold modify in H. assert (es = []) as -> by congruence. reflexivity.
          -- destruct (page s =? b1); unfold call, ret in H.
             ++ assert (es = [EServiceAck]) as -> by congruence. reflexivity.
             ++ assert (es = []) as -> by congruence. reflexivity.
        * rewrite bind_ret in H. apply K in H. rewrite H. destruct (bit_of b0 3); reflexivity.
  Qed.

  (** ** Targets *)

  Definition inside (e : event) : Prop := Forall (fun x => 0 <= target x < 1024) (access_of e).
  Lemma inside_all : forall es, Forall inside es -> Forall (fun x => 0 <= target x < 1024) (accesses es).
  Proof. induction 1 as [|e l He _ IH]; [constructor|]. unfold accesses. cbn [flat_map]. apply Forall_app. split; assumption. Qed.
  Lemma emits_at_byte : forall A P bs i (k : Z -> M (I := I) A), Forall byte bs ->
    (forall b, byte b -> emits P (k b)) -> emits P (bind (at_ bs i) k).
  Proof.
    intros A P bs i k Hb Hk s a s' es H. apply bind_inv in H. destruct H as (v & s1 & e1 & e2 & H1 & H2 & ->).
    unfold at_ in H1. destruct (nth_error bs i) as [w|] eqn:En; [|discriminate]. unfold ret in H1.
    assert (v = w) as -> by congruence. assert (e1 = []) as -> by congruence.
    rewrite Forall_forall in Hb. exact (Hk w (Hb w (nth_error_In _ _ En)) _ _ _ _ H2).
  Qed.
  Lemma cv_target : forall b0 b1, byte b0 -> byte b1 -> 0 <= Z.lor (Z.shiftl (Z.land b0 3) 8) b1 < 1024.
  Proof.
    intros b0 b1 H0 H1. unfold byte in *. rewrite land_3, lor_shiftl by (change (2 ^ 8) with 256; lia).
    change (2 ^ 8) with 256. lia.
  Qed.
  Ltac inn := unfold inside; cbn [access_of target]; repeat constructor; cbn [target]; try lia; try (apply cv_target; assumption).
  Ltac tg := repeat first [apply emits_at_byte; [assumption|intros ? ?]|emits1].

  Lemma inside_dispatch : forall n bs, Forall byte bs -> emits inside (dispatch E n bs).
  Proof. intros n bs Hb. tg; inn. Qed.
  Lemma inside_cvLong : forall n bs, Forall byte bs -> emits inside (cvLong E n bs).
  Proof. intros n bs Hb. tg; inn. Qed.

  Lemma targets : forall s b s' es, reached E s -> (in_service s = true -> page s <> 0) -> execute E s = Ok (b, s', es) ->
    exists e1 e2, es = e1 ++ e2 /\ storing s e1 /\ Forall (fun x => 0 <= target x < 1024) (accesses e2).
  Proof.
    intros s b s' es Hre Hpg H. pose proof (page_byte s Hre) as Hpb.
    destruct (execute_cases E s b s' es Hre H) as [(-> & -> & -> & Hno)|(p & q & s1 & s2 & e1 & e2 & Hr & Hb & Hl & Hk & Hpe & Hs & -> & -> & Hd1 & Hc & Hcase)].
    { exists [], []. split; [reflexivity|]. split; [split; [constructor|auto]|constructor]. }
    exists e1, e2. split; [reflexivity|]. split; [exact Hs|].
    assert (page s1 = page s) as Hp1 by (unfold hk in Hk; unfold page; congruence).
    destruct Hcase as [(Hsv & u & Hx)|[(Hsv & Hf & _ & n & u & Ha & Hx)|(Hsv & Hno & -> & -> & _)]].
    - assert (Hd : 0x70 <= hd 0 p < 0x80 \/ ~ 0x70 <= hd 0 p < 0x80) by lia. destruct Hd as [H7|H7].
      2: { destruct (service_other p q s1 u s2 e2 Hb Hl Hd1 Hx H7) as (-> & _). constructor. }
      destruct (service_inv p q s1 u s2 e2 Hb Hd1 Hx H7) as (A & B & C).
      destruct (Nat.eq_dec (length p) 3) as [L3|L3].
      { specialize (A L3). specialize (Hpg Hsv). destruct p as [|b0 [|b1 t]]; try discriminate.
        inversion Hb as [|? ? H0 Hb']; subst. inversion Hb' as [|? ? H1 _]; subst.
        assert (byte (page s1)) as Hpb1 by (rewrite Hp1; exact Hpb).
        rewrite (register_acc _ _ _ _ _ _ _ H0 H1 Hpb1 A), Hp1. unfold byte in *.
        replace (page s =? 0) with false by lia. cbn [andb]. unfold register_request, register_cv.
        assert (0 <= b0 mod 8 < 8) by (apply Z.mod_pos_bound; lia).
        apply Forall_forall. intros x Hi. apply filter_In in Hi. destruct Hi as [Hi _].
        destruct (b0 mod 8 =? 5); [contradiction|].
        assert (target x = if b0 mod 8 <? 4 then 4 * (page s - 1) + b0 mod 8 else if b0 mod 8 =? 4 then 28 else b0 mod 8) as ->.
        { destruct (bit_of b0 3); destruct Hi as [<-|[]]; reflexivity. }
        destruct (b0 mod 8 <? 4), (b0 mod 8 =? 4); lia. }
      destruct (Nat.eq_dec (length p) 4) as [L4|L4].
      { apply inside_all. exact (inside_cvLong 0 p Hb _ _ _ _ (B L4)). }
      destruct (C L3 L4) as [_ ->]. constructor.
    - apply inside_all. exact (inside_dispatch n _ (body_bytes p Hb) _ _ _ _ Hx).
    - constructor.
  Qed.
End Page.

Section Ack.
  Context {I : Type} (E : Env I).
  Implicit Types s : st I.

  Definition mute {A} (f : M (I := I) A) : Prop :=
    emits (fun e => e <> EServiceAck /\ confirmed e = false) f.
  Lemma mute_nil : forall es, Forall (fun e => e <> EServiceAck /\ confirmed e = false) es ->
    acks_of es = 0%nat /\ confirmations es = 0%nat.
  Proof.
    induction 1 as [|e l [H1 H2] _ [IH1 IH2]]; [split; reflexivity|]. change (e :: l) with ([e] ++ l).
    rewrite acks_app, confirmations_app, IH1, IH2. unfold acks_of, confirmations. cbn [filter]. rewrite H2.
    destruct e; try (split; reflexivity). contradiction.
  Qed.
  Ltac mu := unfold mute; emits_tac; (split; [discriminate|reflexivity]).

  (** *** Operations mode *)

  Definition silent {A} (f : M (I := I) A) : Prop :=
    forall s a s' es, in_service s = false -> f s = Ok (a, s', es) -> acks_of es = 0%nat.
  Definition ackless {A} (f : M (I := I) A) : Prop := emits (fun e => e <> EServiceAck) f.
  Lemma ackless_nil : forall es, Forall (fun e => e <> EServiceAck) es -> acks_of es = 0%nat.
  Proof.
    induction 1 as [|e l H _ IH]; [reflexivity|]. change (e :: l) with ([e] ++ l). rewrite acks_app, IH.
    destruct e; try reflexivity. contradiction.
  Qed.
  Lemma silent_ackless : forall A (f : M (I := I) A), ackless f -> silent f.
  Proof. intros A f Hf s a s' es _ H. apply ackless_nil. exact (Hf _ _ _ _ H). Qed.
  Lemma silent_bind : forall A B (f : M (I := I) A) (k : A -> M (I := I) B),
    silent f -> keeps modef f -> (forall a, silent (k a)) -> silent (bind f k).
  Proof.
    intros A B f k Hf Hm Hk s a s' es Hs H. apply bind_inv in H. destruct H as (v & s1 & e1 & e2 & H1 & H2 & ->).
    rewrite acks_app, (Hf _ _ _ _ Hs H1). apply (Hk v s1 a s'); [|exact H2].
    pose proof (Hm _ _ _ _ H1) as Y. unfold in_service. unfold modef in Y. rewrite Y. exact Hs.
  Qed.
  Lemma silent_run_cb : forall c v, silent (run_cb E c v).
  Proof.
    intros c v s u s' es Hs H. unfold in_service in Hs. destruct c; cbn [run_cb] in H; unfold cb_byte, cb_bit in H;
      rewrite bind_get, Hs in H; cbn [negb] in H;
      match type of H with ?f s = _ => assert (ackless f) as Hx by (unfold ackless; emits_tac; discriminate) end;
      apply ackless_nil; exact (Hx _ _ _ _ H).
  Qed.
  Lemma silent_cb_byte : forall a b, silent (cb_byte E a (u8 b)). Proof. intros a b. exact (silent_run_cb (PendByte a) b). Qed.
  Lemma silent_cb_bit : forall a b, silent (cb_bit E a b).
  Proof.
    intros a b. pose proof (silent_run_cb (PendBit a) (Z.b2z b)) as H. cbn [run_cb] in H.
    destruct b; exact H.
  Qed.
  Lemma silent_async : forall e c, e <> EServiceAck -> silent (call_async E e c).
  Proof.
    intros e c He s u s' es Hs H. unfold call_async in H. destruct (e_async E (app s) e) as [[v|] i].
    - destruct (run_cb E c v _) as [[[u1 s1] e1]|r] eqn:Ec; [|discriminate].
      assert (es = [e] ++ e1) as -> by (cbn [List.app]; congruence). rewrite acks_app.
      rewrite (silent_run_cb c v (Mk_st (rxs s) i (pending s)) u1 s1 e1 Hs Ec).
      destruct e; try reflexivity. contradiction.
    - assert (es = [e]) as -> by congruence. destruct e; try reflexivity. contradiction.
  Qed.
  Lemma cb_byte_red : forall a b s, in_service s = true ->
    exists s', cb_byte E a b s = Ok (tt, s', if a =? b then [EServiceAck] else []).
  Proof.
    intros a b s Hs. unfold cb_byte. rewrite bind_get. unfold in_service in Hs. rewrite Hs. cbn [negb].
    destruct (a =? b); eexists; reflexivity.
  Qed.
  Lemma cb_bit_red : forall a b s, in_service s = true ->
    exists s', cb_bit E a b s = Ok (tt, s', if Bool.eqb a b then [EServiceAck] else []).
  Proof.
    intros a b s Hs. unfold cb_bit. rewrite bind_get. unfold in_service in Hs. rewrite Hs. cbn [negb].
    destruct (Bool.eqb a b); eexists; reflexivity.
  Qed.
  Lemma silent_cb_byte' : forall a b, silent (cb_byte E a b).
  Proof.
    intros a b s u s' es Hs H. unfold cb_byte in H. rewrite bind_get in H. unfold in_service in Hs. rewrite Hs in H. cbn [negb] in H.
    assert (ackless (pom (I := I) b)) as Hx by (unfold ackless; emits_tac; discriminate). apply ackless_nil. exact (Hx _ _ _ _ H).
  Qed.

  Ltac al := apply silent_ackless; unfold ackless; emits_tac; discriminate.
  Ltac sil1 :=
    lazymatch goal with
    | |- silent (bind _ _) => apply silent_bind; [|keeps_tac|intro]
    | |- silent (call_async _ _ _) => apply silent_async; discriminate
    | |- silent (cb_byte _ _ _) => apply silent_cb_byte'
    | |- silent (cb_bit _ _ _) => apply silent_cb_bit
    | |- silent (if ?b then _ else _) => destruct b
    | |- silent (match ?x with _ => _ end) => destruct x
    | |- silent (let _ := _ in _) => cbv zeta
    | |- silent (cvVerify _ _ _) => unfold cvVerify
    | |- silent (cvVerifyBit _ _ _ _) => unfold cvVerifyBit
    | |- silent (cvWrite _ _ _) => unfold cvWrite
    | |- silent (cvWriteBit _ _ _ _) => unfold cvWriteBit
    | |- silent (cvLong _ _ _) => unfold cvLong
    | |- silent (cvShort _ _ _) => unfold cvShort
    | |- silent (consistControl _ _) => unfold consistControl
    | |- silent (dispatch _ _ _) => unfold dispatch
    | |- silent _ => al
    end.
  Lemma silent_dispatch : forall n bs, silent (dispatch E n bs).
  Proof. intros n bs. repeat sil1. Qed.

  Lemma storing_acks : forall s es, storing s es -> acks_of es = 0%nat.
  Proof.
    intros s es [H _]. apply ackless_nil. refine (Forall_impl _ _ H). intros e He ->. exact He.
  Qed.

  Lemma ackless_dyn_all : forall ds, ackless (@dyn_all I ds).
  Proof. induction ds as [|d ds IH]; [unfold ackless; emits_tac|]. apply emits_bind; [emits_tac|intros _; exact IH]. Qed.
  Lemma ackless_datagram : forall ds, ackless (@datagram I ds).
  Proof.
    intros ds. unfold datagram. apply emits_bind; [apply emits_get|intros r]. apply emits_bind; [emits_tac|intros _].
    apply emits_bind; [apply emits_get|intros r']. destruct (block_dyn (r_bidi r')); [apply emits_ret|apply ackless_dyn_all].
  Qed.

  (** No acknowledge outside service mode, nor by any call but those that execute packets
      or deliver answers *)
  Lemma no_ack : forall s o b s' es, reached E s -> step E o s = Ok (b, s', es) ->
    in_service s = false \/ match o with OExecute | OCallback _ _ => False | _ => True end -> acks_of es = 0%nat.
  Proof.
    intros s o b s' es Hre H Hor.
    assert (K : forall (f : M (I := I) unit), ackless f -> bind f (fun _ => ret false) s = Ok (b, s', es) -> acks_of es = 0%nat).
    { intros f Hf Hx. assert (ackless (bind f (fun _ => ret false))) as Kb by (apply emits_bind; [exact Hf|intros; apply emits_ret]).
      apply ackless_nil. exact (Kb _ _ _ _ Hx). }
    destruct o; cbn [step] in H.
    - apply (K (init E)); [unfold ackless; emits_tac; discriminate|exact H].
    - apply (K enable); [unfold ackless; emits_tac; discriminate|exact H].
    - apply (K disable); [unfold ackless; emits_tac; discriminate|exact H].
    - apply (K (receive E time)); [unfold ackless; emits_tac; discriminate|exact H].
    - destruct Hor as [Hsv|[]].
      destruct (execute_cases E s b s' es Hre H) as [(-> & -> & -> & Hno)|(p & q & s1 & s2 & e1 & e2 & Hr & Hb & Hl & Hk & Hpe & Hs & -> & -> & Hd1 & Hc & Hcase)].
      { reflexivity. }
      rewrite acks_app, (storing_acks _ _ Hs). cbn [Nat.add].
      assert (in_service s1 = in_service s) as Hsv1 by (unfold hk in Hk; unfold in_service; congruence).
      destruct Hcase as [(Hsv' & u & Hx)|[(_ & Hf & _ & n & u & Ha & Hx)|(_ & Hno & -> & -> & _)]]; [congruence| |reflexivity].
      exact (silent_dispatch n _ s1 u s2 e2 ltac:(congruence) Hx).
    - apply (K _ (ackless_datagram ds) H).
    - apply (K (biDiChannel1 E)); [unfold ackless; emits_tac; discriminate|exact H].
    - apply (K (biDiChannel2 E)); [unfold ackless; emits_tac; discriminate|exact H].
    - destruct Hor as [Hsv|[]]. destruct (nth_error (pending s) i) as [c|]; [|assert (es = []) as -> by congruence; reflexivity].
      apply bind_inv in H. destruct H as (u1 & s1 & e1 & e2 & H1 & H2 & ->). unfold ret in H2.
      assert (e2 = []) as -> by congruence. rewrite app_nil_r. exact (silent_run_cb c v s u1 s1 e1 Hsv H1).
  Qed.

  Lemma callback_ack : forall s i c v, in_service s = true -> nth_error (pending s) i = Some c ->
    exists s', step E (OCallback i v) s = Ok (false, s',
      if match c with PendByte b => b =? u8 v | PendBit b => Bool.eqb b (negb (v =? 0)) end then [EServiceAck] else []).
  Proof.
    intros s i c v Hs Hn. cbn [step]. rewrite Hn. unfold bind. destruct c; cbn [run_cb].
    - destruct (cb_byte_red b (u8 v) s Hs) as (s' & H). rewrite H. unfold ret. rewrite app_nil_r. eexists. reflexivity.
    - destruct (cb_bit_red b (negb (v =? 0)) s Hs) as (s' & H). rewrite H. unfold ret. rewrite app_nil_r. eexists. reflexivity.
  Qed.

  Lemma other_step : forall s p q b s' es, reached E s -> in_service s = true -> ready s p q ->
    ~ (0x70 <= hd 0 p < 0x80 /\ (length p = 3%nat \/ length p = 4%nat)) -> execute E s = Ok (b, s', es) ->
    exists e1 e2, es = e1 ++ e2 /\ storing s e1 /\ accesses e2 = [] /\ acks_of e2 = 0%nat /\ page s' = page s.
  Proof.
    intros s p q b s' es Hre Hsv Hr H7 H.
    destruct (execute_cases E s b s' es Hre H) as [(_ & _ & _ & Hno)|(p' & q' & s1 & s2 & e1 & e2 & Hr' & Hb & Hl & Hk & Hpe & Hs & -> & -> & Hd1 & Hc & Hcase)].
    { exfalso. exact (Hno _ _ Hr). }
    pose proof (ready_fun _ _ _ _ _ Hr Hr') as Hpp. subst p'.
    destruct Hcase as [(_ & u & Hx)|[(Hf & _)|(Hf & _)]]; [|congruence|congruence].
    assert (page s1 = page s) as Hp1 by (unfold hk in Hk; unfold page; congruence).
    exists e1, e2. split; [reflexivity|]. split; [exact Hs|].
    assert (Hd : 0x70 <= hd 0 p < 0x80 \/ ~ 0x70 <= hd 0 p < 0x80) by lia. destruct Hd as [Hd|Hd].
    - destruct (service_inv E _ _ _ _ _ _ Hb Hd1 Hx Hd) as (_ & _ & C). destruct C as [-> ->]; [tauto|tauto|]. auto.
    - destruct (service_other E _ _ _ _ _ _ Hb Hl Hd1 Hx Hd) as (A & B & _ & D). rewrite <- Hp1. auto.
  Qed.

  (** *** Service mode, synchronous application *)

  Section Sync.
    Hypothesis Hsync : e_async_readable E = false /\ e_async_writable E = false.

    Definition honest {A} (f : M (I := I) A) : Prop :=
      forall s a s' es, in_service s = true -> f s = Ok (a, s', es) -> acks_of es = confirmations es.
    Lemma honest_mute : forall A (f : M (I := I) A), mute f -> honest f.
    Proof. intros A f Hf s a s' es _ H. destruct (mute_nil _ (Hf _ _ _ _ H)) as [-> ->]. reflexivity. Qed.
    Lemma honest_bind : forall A B (f : M (I := I) A) (k : A -> M (I := I) B),
      honest f -> keeps modef f -> (forall a, honest (k a)) -> honest (bind f k).
    Proof.
      intros A B f k Hf Hm Hk s a s' es Hs H. apply bind_inv in H. destruct H as (v & s1 & e1 & e2 & H1 & H2 & ->).
      rewrite acks_app, confirmations_app, (Hf _ _ _ _ Hs H1). f_equal. apply (Hk v s1 a s'); [|exact H2].
      pose proof (Hm _ _ _ _ H1) as Y. unfold in_service. unfold modef in Y. rewrite Y. exact Hs.
    Qed.
    Lemma acked_byte : forall a b e s u s' es, in_service s = true -> confirmed e = (a =? b) -> e <> EServiceAck ->
      cb_byte E a b s = Ok (u, s', es) -> acks_of (e :: es) = confirmations (e :: es).
    Proof.
      intros a b e s u s' es Hs Hc He H. destruct (cb_byte_red a b s Hs) as (s2 & H2). rewrite H2 in H.
      assert (es = if a =? b then [EServiceAck] else []) as -> by congruence. clear H H2.
      unfold acks_of, confirmations. cbn [filter]. rewrite Hc. destruct (a =? b), e; try reflexivity; contradiction.
    Qed.
    Lemma acked_bit : forall a b e s u s' es, in_service s = true -> confirmed e = Bool.eqb a b -> e <> EServiceAck ->
      cb_bit E a b s = Ok (u, s', es) -> acks_of (e :: es) = confirmations (e :: es).
    Proof.
      intros a b e s u s' es Hs Hc He H. destruct (cb_bit_red a b s Hs) as (s2 & H2). rewrite H2 in H.
      assert (es = if Bool.eqb a b then [EServiceAck] else []) as -> by congruence. clear H H2.
      unfold acks_of, confirmations. cbn [filter]. rewrite Hc. destruct (Bool.eqb a b), e; try reflexivity; contradiction.
    Qed.
    Lemma honest_readByte : forall a v, honest (bind (readCvByte E a v) (fun r => cb_byte E v r)).
    Proof.
      intros a v s u s' es Hs H. unfold bind, readCvByte in H. destruct (e_readCvByte E (app s) a v) as [z i].
      destruct (cb_byte E v (u8 z) _) as [[[u1 s1] e1]|] eqn:Ec; [|discriminate].
      assert (es = EReadCvByte a v (u8 z) :: e1) as -> by (cbn [List.app] in H; congruence).
      refine (acked_byte v (u8 z) (EReadCvByte a v (u8 z)) _ u1 s1 e1 _ eq_refl _ Ec); [exact Hs|discriminate].
    Qed.
    Lemma honest_readBit : forall a v k, honest (bind (readCvBit E a v k) (fun r => cb_bit E v r)).
    Proof.
      intros a v k s u s' es Hs H. unfold bind, readCvBit in H. destruct (e_readCvBit E (app s) a v k) as [z i].
      destruct (cb_bit E v z _) as [[[u1 s1] e1]|] eqn:Ec; [|discriminate].
      assert (es = EReadCvBit a v k z :: e1) as -> by (cbn [List.app] in H; congruence).
      refine (acked_bit v z (EReadCvBit a v k z) _ u1 s1 e1 _ eq_refl _ Ec); [exact Hs|discriminate].
    Qed.
    Lemma honest_write : forall a v, honest (bind (writeCv E a v) (fun r => cb_byte E v r)).
    Proof.
      intros a v s u s' es Hs H. unfold bind, writeCv in H. destruct (e_writeCv E (app s) a v) as [z i].
      destruct (cb_byte E v (u8 z) _) as [[[u1 s1] e1]|] eqn:Ec; [|discriminate].
      assert (es = EWriteCv a v (u8 z) :: e1) as -> by (cbn [List.app] in H; congruence).
      refine (acked_byte v (u8 z) (EWriteCv a v (u8 z)) _ u1 s1 e1 _ eq_refl _ Ec); [exact Hs|discriminate].
    Qed.
    Lemma honest_writeBit : forall a v k, honest (bind (writeCvBit E a v k) (fun r => cb_bit E v r)).
    Proof.
      intros a v k s u s' es Hs H. unfold bind, writeCvBit in H. destruct (e_writeCvBit E (app s) a v k) as [z i].
      destruct (cb_bit E v z _) as [[[u1 s1] e1]|] eqn:Ec; [|discriminate].
      assert (es = EWriteCvBit a v k z :: e1) as -> by (cbn [List.app] in H; congruence).
      refine (acked_bit v z (EWriteCvBit a v k z) _ u1 s1 e1 _ eq_refl _ Ec); [exact Hs|discriminate].
    Qed.
    Ltac hm := apply honest_mute; mu.
    Ltac hon1 :=
      lazymatch goal with
      | |- honest (bind (readCvByte _ _ _) _) => apply honest_readByte
      | |- honest (bind (readCvBit _ _ _ _) _) => apply honest_readBit
      | |- honest (bind (writeCv _ _ _) _) => apply honest_write
      | |- honest (bind (writeCvBit _ _ _ _) _) => apply honest_writeBit
      | |- honest (bind _ _) => apply honest_bind; [|keeps_tac|intro]
      | |- honest (if ?b then _ else _) => destruct b
      | |- honest (match ?x with _ => _ end) => destruct x
      | |- honest (let _ := _ in _) => cbv zeta
      | |- honest (cvVerify _ _ _) => unfold cvVerify; rewrite (proj1 Hsync)
      | |- honest (cvVerifyBit _ _ _ _) => unfold cvVerifyBit; rewrite (proj1 Hsync)
      | |- honest (cvWrite _ _ _) => unfold cvWrite; rewrite (proj2 Hsync)
      | |- honest (cvWriteBit _ _ _ _) => unfold cvWriteBit; rewrite (proj2 Hsync)
      | |- honest (cvLong _ _ _) => unfold cvLong
      | |- honest _ => hm
      end.
    Lemma honest_cvLong : forall n bs, honest (cvLong E n bs). Proof. intros. repeat hon1. Qed.
    Lemma honest_cvWrite : forall a v, honest (cvWrite E a v). Proof. intros. repeat hon1. Qed.
    Lemma honest_cvVerify : forall a v, honest (cvVerify E a v). Proof. intros. repeat hon1. Qed.

    Lemma register_ack : forall b0 b1 t s u s' es, in_service s = true -> byte b0 ->
      registerMode E (b0 :: b1 :: t) s = Ok (u, s', es) ->
      if b0 mod 8 =? 5
      then es = (if negb (bit_of b0 3) && (page s =? b1) then [EServiceAck] else [])
      else acks_of es = confirmations es.
    Proof.
      intros b0 b1 t s u s' es Hs H0 H. unfold byte in H0. unfold registerMode in H. cbn [at_ nth_error] in H.
      rewrite bind_ret, bind_get in H. cbv zeta in H. rewrite land_7, testbit_bit in H by lia.
      change (index_reg (r_cv (rxs s))) with (page s) in H.
      assert (K : forall a, (if bit_of b0 3 then cvWrite E a b1 else cvVerify E a b1) s = Ok (u, s', es) ->
        acks_of es = confirmations es).
      { intros a Hx. destruct (bit_of b0 3); [exact (honest_cvWrite _ _ _ _ _ _ Hs Hx)|exact (honest_cvVerify _ _ _ _ _ _ Hs Hx)]. }
      destruct (Z.leb_spec (b0 mod 8) 3).
      { replace (b0 mod 8 =? 5) with false by lia. rewrite bind_ret in H. exact (K _ H). }
      destruct (Z.eqb_spec (b0 mod 8) 4).
      { replace (b0 mod 8 =? 5) with false by lia. rewrite bind_ret in H. exact (K _ H). }
      destruct (b0 mod 8 =? 5).
      - rewrite bind_ret in H. destruct (bit_of b0 3); cbn [negb andb].
        + unfold modify in H. congruence.
        + destruct (page s =? b1); unfold call, ret in H; congruence.
      - rewrite bind_ret in H. exact (K _ H).
    Qed.

    Lemma direct_step : forall s b0 b1 b2 c q b s' es, reached E s -> in_service s = true -> ready s [b0; b1; b2; c] q ->
      0x70 <= b0 < 0x80 -> execute E s = Ok (b, s', es) ->
      exists k e1 e2, es = e1 ++ e2 /\ storing s e1 /\ nth_in_row s [b0; b1; b2; c] k /\ counted s' [b0; b1; b2; c] k /\
        accesses e2 = (if (k =? 2)%nat then filter (permitted (locked s)) (request b0 b1 b2) else []) /\
        acks_of e2 = confirmations e2 /\ (acks_of e2 <= 1)%nat.
    Proof.
      intros s b0 b1 b2 c q b s' es Hre Hsv Hr H7 H.
      destruct (execute_cases E s b s' es Hre H) as [(_ & _ & _ & Hno)|(p & q' & s1 & s2 & e1 & e2 & Hr' & Hb & Hl & Hk & Hpe & Hs & -> & -> & Hd1 & Hc & Hcase)].
      { exfalso. exact (Hno _ _ Hr). }
      pose proof (ready_fun _ _ _ _ _ Hr Hr') as Hpp. subst p.
      destruct Hcase as [(_ & u & Hx)|[(Hf & _)|(Hf & _)]]; [|congruence|congruence].
      destruct (service_inv E _ _ _ _ _ _ Hb Hd1 Hx H7) as (_ & B & _). specialize (B eq_refl).
      assert (in_service s1 = true) as Hsv1 by (unfold hk in Hk; unfold in_service in *; congruence).
      inversion Hb as [|? ? H0 Hb']; subst. inversion Hb' as [|? ? H1 Hb'']; subst. inversion Hb'' as [|? ? H2 _]; subst.
      destruct (cvLong_acc E s1 [b0; b1; b2; c] q' 0 b0 b1 b2 [c] tt s2 e2 Hd1 H0 H1 H2) as (k & K1 & K2 & K3); [intros [X _]; apply X; reflexivity|exact B|].
      assert (nth_in_row s [b0; b1; b2; c] k) as K1'.
      { unfold hk in Hk. unfold nth_in_row, last_cv_packet, cv_packet_count in *. replace (r_cv (rxs s)) with (r_cv (rxs s1)) by congruence. exact K1. }
      assert (locked s1 = locked s) as Hlk by (unfold hk in Hk; unfold locked; congruence).
      rewrite Hsv1, Hlk in K3.
      assert (accesses e2 = if (k =? 2)%nat then filter (permitted (locked s)) (request b0 b1 b2) else []) as K3'.
      { destruct (Nat.eqb_spec k 2) as [->|]; cbn [andb negb] in K3; [rewrite due_service in K3|]; exact K3. }
      pose proof (honest_cvLong _ _ _ _ _ _ Hsv1 B) as Hh.
      exists k, e1, e2. split; [reflexivity|]. split; [exact Hs|]. split; [exact K1'|]. split; [exact K2|]. split; [exact K3'|].
      split; [exact Hh|]. rewrite Hh. etransitivity; [apply confirmations_le|]. rewrite K3'.
      destruct (k =? 2)%nat; [|cbn; lia]. unfold request.
      repeat match goal with |- context [match ?x with _ => _ end] => destruct x; cbn [filter length]; try lia end.
    Qed.

    Lemma register_step : forall s b0 b1 c q b s' es, reached E s -> in_service s = true -> ready s [b0; b1; c] q ->
      0x70 <= b0 < 0x80 -> execute E s = Ok (b, s', es) ->
      exists e1 e2, es = e1 ++ e2 /\ storing s e1 /\
        accesses e2 = filter (permitted (locked s))
          (if (page s =? 0) && (b0 mod 8 <? 4)
           then [(if bit_of b0 3 then Store else Check) (2 ^ 32 - 4 + b0 mod 8) b1]
           else register_request (page s) b0 b1) /\
        (if b0 mod 8 =? 5 then e2 = (if negb (bit_of b0 3) && (page s =? b1) then [EServiceAck] else [])
         else acks_of e2 = confirmations e2) /\
        (acks_of e2 <= 1)%nat /\
        page s' = (if b0 mod 16 =? 13 then b1 else page s).
    Proof.
      intros s b0 b1 c q b s' es Hre Hsv Hr H7 H. pose proof (page_byte E s Hre) as Hpb.
      destruct (execute_cases E s b s' es Hre H) as [(_ & _ & _ & Hno)|(p & q' & s1 & s2 & e1 & e2 & Hr' & Hb & Hl & Hk & Hpe & Hs & -> & -> & Hd1 & Hc & Hcase)].
      { exfalso. exact (Hno _ _ Hr). }
      pose proof (ready_fun _ _ _ _ _ Hr Hr') as Hpp. subst p.
      destruct Hcase as [(_ & u & Hx)|[(Hf & _)|(Hf & _)]]; [|congruence|congruence].
      destruct (service_inv E _ _ _ _ _ _ Hb Hd1 Hx H7) as (A & _). specialize (A eq_refl).
      assert (in_service s1 = true) as Hsv1 by (unfold hk in Hk; unfold in_service in *; congruence).
      assert (page s1 = page s) as Hp1 by (unfold hk in Hk; unfold page; congruence).
      assert (locked s1 = locked s) as Hlk by (unfold hk in Hk; unfold locked; congruence).
      inversion Hb as [|? ? H0 Hb']; subst. inversion Hb' as [|? ? H1 _]; subst.
      assert (byte (page s1)) as Hpb1 by (rewrite Hp1; exact Hpb).
      pose proof (register_acc E _ _ _ _ _ _ _ H0 H1 Hpb1 A) as Ka. pose proof (register_ack _ _ _ _ _ _ _ Hsv1 H0 A) as Kk.
      pose proof (register_page E _ _ _ _ _ _ _ H0 A) as Kp. rewrite Hp1, Hlk in *.
      exists e1, e2. split; [reflexivity|]. split; [exact Hs|]. split; [exact Ka|]. split; [exact Kk|]. split; [|exact Kp].
      destruct (b0 mod 8 =? 5) eqn:E5.
      - rewrite Kk. destruct (negb (bit_of b0 3) && (page s =? b1)); cbn; lia.
      - rewrite Kk. etransitivity; [apply confirmations_le|]. rewrite Ka. unfold register_request. rewrite E5.
        destruct ((page s =? 0) && (b0 mod 8 <? 4)), (bit_of b0 3); cbn [filter length];
          match goal with |- context [if ?b then _ else _] => destruct b end; cbn; lia.
    Qed.
  End Sync.
End Ack.
