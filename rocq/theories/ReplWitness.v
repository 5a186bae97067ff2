(** Concrete sessions of the example examples/repl, and its addresses *)
From Verif Require Import Prelude Address Packets ZBits SpecCodec SpecTx TxProofs Tx CodecProofs CodecProofs2 RxState Rx RxLogic SpecRx
  RxBitProofs RxBitProofs2 RxBitProofs3 RxBitProofs4 RxBitProofs5 SpecExec SpecConf SpecCv
  SpecLayout LayoutProofs LayoutProofs2 LayoutProofs3 LayoutProofs4 LayoutProofs5 LayoutProofs6 SpecLayout2 LayoutProofs7
  LayoutProofs8 Repl SpecRepl ReplProofs ReplProofs2 ReplProofs3 ReplProofs4.
Local Ltac Zify.zify_post_hook ::= Z.div_mod_to_equations.

(** Both tasks take turns *)
Definition turns (n : nat) : list rstep := concat (repeat [RLoop; RExecute] n).

(** ** A computable check of [keeps_up] *)

Definition room (p : repl) : bool :=
  match p_decoder p with Some s => (length (r_deque (rxs s)) <? 31)%nat | None => true end.
Fixpoint always_room (os : list rstep) (p : repl) : bool :=
  room p && match os with
            | [] => true
            | o :: r => match repl_step o p with Done (p1, _) => always_room r p1 | _ => true end
            end.

Lemma always_room_run : forall os1 os2 q p out s, always_room (os1 ++ os2) q = true ->
  repl_run os1 q = Done (p, out) -> p_decoder p = Some s -> (length (r_deque (rxs s)) < 31)%nat.
Proof.
  induction os1 as [|o os1 IH]; intros os2 q p out s Hr H Hs.
  - cbn [repl_run] in H. apply Done_inj in H. injection H as <- <-.
    assert (Hq : room q = true) by (destruct os2; cbn [List.app always_room] in Hr; apply andb_prop in Hr; tauto).
    unfold room in Hq. rewrite Hs in Hq. apply Nat.ltb_lt. exact Hq.
  - cbn [List.app always_room] in Hr. apply andb_prop in Hr. destruct Hr as [_ Hr].
    cbn [repl_run] in H. destruct (repl_step o q) as [[p1 a]|r|]; [|discriminate H|discriminate H]. cbn [rdo] in H.
    destruct (repl_run os1 p1) as [[p2 b]|r|] eqn:E; [|discriminate H|discriminate H]. cbn [rdo] in H.
    apply Done_inj in H. injection H as <- <-. exact (IH os2 p1 p2 b s Hr E Hs).
Qed.

Lemma room_keeps_up : forall os, always_room os repl0 = true -> keeps_up os.
Proof.
  intros os H os1 os2 p out s -> Hrun Hs. exact (always_room_run os1 os2 repl0 p out s H Hrun Hs).
Qed.

(** ** Addresses *)

Lemma sent_to : forall c a, documented c -> 0 <= a -> (forall n, meant c n <> []) ->
  exists d, (forall n, meant c n = [(n, d)]) /\ cmd_ok d /\
    repl_packets (Addr a ATShort false) c =
      Ok (repeat (closed (a mod 256 :: payload d)) (if is_write d then 2 else 1)).
Proof.
  intros c a Hd Ha Hm.
  assert (Hsp : forall dir s, 0 <= s <= 127 -> u8 (Z.lor (Z.shiftl (Z.b2z dir) 7) s) = 128 * Z.b2z dir + s).
  { intros dir s Hs. assert (Hor : Z.lor (Z.shiftl (Z.b2z dir) 7) s = 128 * Z.b2z dir + s).
    { rewrite Z.shiftl_mul_pow2 by lia.
      assert (Hb : Z.land (Z.b2z dir * 2 ^ 7) s = 0).
      { apply Z.bits_inj'. intros j Hj. rewrite Z.land_spec, Z.bits_0.
        destruct (Z_lt_le_dec j 7).
        - rewrite Z.mul_pow2_bits_low by lia. reflexivity.
        - replace s with (s mod 2 ^ 7) by (apply Z.mod_small; lia). rewrite Z.mod_pow2_bits_high by lia. apply andb_false_r. }
      rewrite <- Z.lxor_lor by exact Hb. rewrite <- Z.add_nocarry_lxor by exact Hb. destruct dir; cbn [Z.b2z]; lia. }
    rewrite Hor. unfold u8. destruct dir; cbn [Z.b2z]; lia. }
  assert (Hf85 : forall s, make_function_group_f8_f5_packet (Addr a ATShort false) s =
                 make_function_group_f8_f5_packet (Addr a ATShort false) (s mod 16)).
  { intros s. unfold make_function_group_f8_f5_packet.
    replace (Z.land (s mod 16) 0xF) with (Z.land s 0xF); [reflexivity|].
    change 0xF with (Z.ones 4). rewrite !Z.land_ones by lia. change (2 ^ 4) with 16. rewrite Z.mod_mod by lia. reflexivity. }
  assert (Hg : forall d, cmd_ok d -> generate (Addr a ATShort false) d = Ok (closed (a mod 256 :: payload d))).
  { intros d Hdok. apply (generate_head (Addr a ATShort false) [a mod 256]).
    - reflexivity.
    - constructor; [unfold byte; lia|constructor].
    - cbn [length]. lia.
    - exact Hdok. }
  destruct c; cbn [repl_packets documented] in *; [exfalso; apply (Hm 0); reflexivity|..].
  1: pose proof (Hg (CSpeed126 (128 * Z.b2z dir + speed))) as G; exists (CSpeed126 (128 * Z.b2z dir + speed));
     rewrite Hsp by exact Hd.
  2: pose proof (Hg (CF4_F0 state)) as G; exists (CF4_F0 state).
  3: pose proof (Hg (CF8_F5 (state mod 16))) as G; exists (CF8_F5 (state mod 16)); rewrite Hf85.
  4: pose proof (Hg (CVerify cv 0)) as G; exists (CVerify cv 0).
  5: pose proof (Hg (CWrite cv b)) as G; exists (CWrite cv b).
  6: pose proof (Hg (CVerifyBit cv bit pos)) as G; exists (CVerifyBit cv bit pos).
  7: pose proof (Hg (CWriteBit cv bit pos)) as G; exists (CWriteBit cv bit pos).
  all: (split; [reflexivity|]);
    match type of G with ?P -> _ => assert (Hc : P) by
      (cbn [cmd_ok]; unfold byte; try destruct dir; cbn [Z.b2z]; lia) end;
    specialize (G Hc); split; [exact Hc|]; cbn [generate] in G; rewrite G; reflexivity.
Qed.

Lemma closed_length : forall l, length (closed l) = S (length l).
Proof. intros l. unfold closed. rewrite app_length. cbn [length]. lia. Qed.

Lemma address_exact : forall c a, documented c -> (forall n, meant c n <> []) -> 0 <= a <= 10239 ->
  exists ps, repl_packets (Addr a ATShort false) c = Ok ps /\
    (Forall2 packets_for (meant c a) [ps] <-> a <= 127).
Proof.
  intros c a Hd Hm Ha. destruct (sent_to c a Hd ltac:(lia) Hm) as (d & Hmd & Hok & Hps).
  eexists. split; [exact Hps|]. rewrite Hmd.
  assert (Hg : generate (loco a) d = Ok (frame a (payload d))) by (apply generate_frame; assumption).
  split.
  - intros H. inversion H as [|? ? ? ? H1 _]; subst. destruct H1 as (p & Hp & He). cbn [fst snd] in Hp, He.
    rewrite Hg in Hp. apply Ok_inj in Hp. subst p.
    assert (E : closed (a mod 256 :: payload d) = frame a (payload d)).
    { destruct (is_write d); cbn [repeat] in He; congruence. }
    apply (f_equal (@length Z)) in E. rewrite closed_length, frame_length in E. cbn [length] in E.
    unfold wire_head in E. destruct (Z.leb_spec a 127); [lia|]. cbn [length] in E. lia.
  - intros H. constructor; [|constructor]. exists (frame a (payload d)). split; [exact Hg|].
    f_equal. rewrite frame_closed. unfold wire_head. destruct (Z.leb_spec a 127); [|lia].
    rewrite Z.mod_small by lia. reflexivity.
Qed.

Lemma address_mod : forall c a, documented c -> (forall n, meant c n <> []) -> 0 <= a -> a mod 256 <= 127 ->
  exists ps, repl_packets (Addr a ATShort false) c = Ok ps /\ Forall2 packets_for (meant c (a mod 256)) [ps].
Proof.
  intros c a Hd Hm Ha Hlow. destruct (sent_to c a Hd Ha Hm) as (d & Hmd & Hok & Hps).
  eexists. split; [exact Hps|]. rewrite Hmd. constructor; [|constructor].
  exists (frame (a mod 256) (payload d)). split; [apply generate_frame; [lia|exact Hok]|].
  f_equal. rewrite frame_closed. unfold wire_head. destruct (Z.leb_spec (a mod 256) 127); [reflexivity|lia].
Qed.

(** Every typed command is put into the FIFO *)
Lemma typed_defined : forall a c, documented c -> 0 <= a -> exists ps, repl_packets (Addr a ATShort false) c = Ok ps.
Proof.
  intros a c Hd Ha. destruct c; try (match goal with |- exists ps, repl_packets _ ?c = _ =>
    destruct (sent_to c a Hd Ha) as (d & _ & _ & ->); [intros n; discriminate|eexists; reflexivity] end).
  eexists. reflexivity.
Qed.

(** ** Sessions *)

Definition session1 : list rstep :=
  RStart :: RType (RSpeed true 42) :: RType (RWriteByte 2 5) :: turns 600.

Lemma session1_run : exists p out, repl_run session1 repl0 = Done (p, out) /\ o_lost out = [] /\
  length (filter not_idle (o_done out)) = 3%nat /\ cvs_in p 2 = 5 /\
  seen_in (o_calls out) = [Told (EDirection 3 true); Told (ESpeed 3 82); Access (Store 2 5)].
Proof.
  do 2 eexists. split; [vm_compute; reflexivity|]. split; [vm_compute; reflexivity|].
  split; [vm_compute; reflexivity|]. split; vm_compute; reflexivity.
Qed.

Lemma session1_keeps_up : keeps_up session1.
Proof. apply room_keeps_up. vm_compute. reflexivity. Qed.

Lemma wrong_loco : exists p out,
  repl_run (RStart :: RType (RAddress 259) :: RType (RSpeed true 42) :: turns 400) repl0 = Done (p, out) /\
  o_lost out = [] /\ seen_in (o_calls out) = [Told (EDirection 3 true); Told (ESpeed 3 82)].
Proof. do 2 eexists. split; [vm_compute; reflexivity|]. split; vm_compute; reflexivity. Qed.

Definition seven : list rstep := map (fun k => RType (RWriteByte k 5)) [9; 10; 11; 12; 13; 14; 15].

Lemma lost_commands : exists p out,
  repl_run (RStart :: seven ++ turns 1200) repl0 = Done (p, out) /\ p_fifo p = [] /\
  length (o_lost out) = 11%nat /\ keeps_up (RStart :: seven ++ turns 1200) /\
  seen_in (o_calls out) = [Access (Store 9 5)] /\
  map (cvs_in p) [9; 10; 11; 12; 13; 14; 15] = [5; 0; 0; 0; 0; 0; 0].
Proof.
  do 2 eexists. split; [vm_compute; reflexivity|]. split; [vm_compute; reflexivity|].
  split; [vm_compute; reflexivity|]. split; [apply room_keeps_up; vm_compute; reflexivity|].
  split; vm_compute; reflexivity.
Qed.

Lemma too_early : repl_run [RLoop] repl0 = BadFunctionCall.
Proof. vm_compute. reflexivity. Qed.

Lemma none_typed : forall P, every_command P [RLoop].
Proof. intros P c [H|[]]. discriminate H. Qed.

Lemma turns_typed : forall n c, ~ In (RType c) (turns n).
Proof.
  intros n c H. unfold turns in H. apply in_concat in H. destruct H as (l & Hl & Hin).
  apply repeat_spec in Hl. subst l. destruct Hin as [H|[H|[]]]; discriminate H.
Qed.

Lemma cv1_200 : exists os, every_command documented os /\ every_command short_address os /\
  orders_typed 3 os = [(3, CWrite 0 200)] /\ repl_run os repl0 = Undefined OutOfBounds.
Proof.
  exists (RStart :: RType (RWriteByte 0 200) :: turns 600).
  split. { intros c [H|[H|H]]; [discriminate H| |destruct (turns_typed _ _ H)]. injection H as <-. cbn [documented]. lia. }
  split. { intros c [H|[H|H]]; [discriminate H| |destruct (turns_typed _ _ H)]. injection H as <-. exact I. }
  split; vm_compute; reflexivity.
Qed.

Lemma address_254 : exists os, every_command documented os /\
  orders_typed 3 os = [(254, CVerify 7 0)] /\ repl_run os repl0 = Undefined OutOfBounds.
Proof.
  exists (RStart :: RType (RAddress 254) :: RType (RReadByte 7) :: turns 600).
  split. { intros c [H|[H|[H|H]]]; [discriminate H| | |destruct (turns_typed _ _ H)]; injection H as <-; cbn [documented]; lia. }
  split; vm_compute; reflexivity.
Qed.
