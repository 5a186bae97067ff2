(** The interpreter of packets on the packets of commands *)
From Verif Require Import Prelude Address ZBits SpecCodec CodecProofs CodecProofs2 RxState Rx SpecRx RxBitProofs SpecExec SpecConf SpecCv
  SpecLayout SpecLayout2.
Local Ltac Zify.zify_post_hook ::= Z.div_mod_to_equations.

Definition packet_of (o : order) : list Z := frame (fst o) (payload (snd o)).

Lemma packets_of_order : forall o ps, order_ok o -> packets_for o ps ->
  ps = repeat (packet_of o) (if is_write (snd o) then 2 else 1).
Proof.
  intros [n d] ps [Hn Hd] (p & Hp & ->). cbn [fst snd] in *.
  rewrite generate_frame in Hp by assumption. apply Ok_inj in Hp. rewrite <- Hp. reflexivity.
Qed.

Lemma address_frame : forall n pl, 0 <= n <= 10239 -> Forall byte pl -> address_of (frame n pl) = wire_address n.
Proof.
  intros n pl Hn Hp. apply Ok_inj. rewrite <- (frame_address n pl Hn).
  symmetry. apply decode_address_of.
  - apply frame_byte; assumption.
  - rewrite frame_length. unfold wire_head. destruct (n <=? 127); cbn [length]; lia.
Qed.

Lemma recipient_frame : forall c n pl, 0 <= n <= 10239 -> Forall byte pl ->
  recipient c (frame n pl) = if answers c n then Some n else None.
Proof.
  intros c n pl Hn Hp. unfold recipient. rewrite address_frame by assumption. unfold wire_address, answers. cbn [atyp aval].
  destruct (n =? 0); [reflexivity|]. destruct (n <=? 127); reflexivity.
Qed.

Lemma body_frame : forall n pl, 0 <= n <= 10239 -> Forall byte pl ->
  body_of (frame n pl) = pl ++ [xor_all (wire_head n ++ pl)].
Proof.
  intros n pl Hn Hp. unfold body_of. rewrite address_frame by assumption. unfold wire_address, frame, wire_head. cbn [atyp].
  destruct (n =? 0) eqn:E0.
  - apply Z.eqb_eq in E0. subst n. reflexivity.
  - destruct (n <=? 127); reflexivity.
Qed.

Lemma frame_injective : forall n d n' d', order_ok (n, d) -> order_ok (n', d') ->
  frame n (payload d) = frame n' (payload d') -> n = n' /\ d = d'.
Proof.
  intros n d n' d' [H1 H2] [H3 H4] H. cbn [fst snd] in *. apply frame_inj in H; try assumption. destruct H as [-> H].
  split; [reflexivity|]. apply payload_inj; assumption.
Qed.

Section Orders.
  Variable ew : bool.

  Lemma idle_nothing : forall v, v_service v = false -> obey ew [0xFF; 0x00; 0xFF] v = (v, []).
  Proof. intros v Hv. unfold obey. rewrite Hv. reflexivity. Qed.

  (** ** Driving *)
  Lemma obey_driving : forall n d v, order_ok (n, d) -> v_service v = false -> on_cvs d = false ->
    obey ew (frame n (payload d)) v = (v, if answers (v_cvs v) n then map Told (told (v_cvs v) n d) else []).
  Proof.
    intros n d v [Hn Hd] Hv Hc. cbn [fst snd] in *. pose proof (payload_byte d Hd) as Hb.
    unfold obey. rewrite Hv. unfold operations. rewrite recipient_frame, body_frame by assumption.
    destruct (answers (v_cvs v) n); [|reflexivity].
    generalize (xor_all (wire_head n ++ payload d)). intros ck.
    destruct d; cbn [on_cvs] in Hc; try discriminate; cbn [cmd_ok payload List.app told] in *;
      repeat match goal with
        | |- context [?b <? 16] => replace (b <? 16) with false by lia
        | |- context [?b <? 32] => replace (b <? 32) with false by lia
        | |- context [?b <? 0xE0] => replace (b <? 0xE0) with true by lia
        end; unfold driving; cbn [hd tl].
    - reflexivity.
    - cbn [Z.eqb Z.ltb Pos.eqb Pos.compare Pos.compare_cont]. do 2 f_equal.
      replace (removelast (f7_f0 :: more ++ [ck])) with (f7_f0 :: more).
      + rewrite firstn_all2 by (cbn [length]; lia). reflexivity.
      + change (f7_f0 :: more ++ [ck]) with ((f7_f0 :: more) ++ [ck]). rewrite removelast_last. reflexivity.
    - replace (64 + s =? 0x3F) with false by lia. replace (64 + s =? 0x3C) with false by lia.
      replace (64 + s =? 0x3E) with false by lia. replace (64 + s <? 0x40) with false by lia.
      replace (64 + s <? 0x80) with true by lia. reflexivity.
    - set (b := 128 + 16 * (s mod 2) + s / 2).
      assert (H : 128 <= b < 160) by lia.
      replace (b =? 0x3F) with false by lia. replace (b =? 0x3C) with false by lia.
      replace (b =? 0x3E) with false by lia. replace (b <? 0x40) with false by lia.
      replace (b <? 0x80) with false by lia. replace (b <? 0xC0) with true by lia.
      cbn [map]. do 3 f_equal. unfold function_group_call. replace (b <? 0xA0) with true by lia.
      replace (2 * (b mod 16) + b / 16 mod 2) with s by lia. reflexivity.
    - set (b := 176 + s). assert (H : 176 <= b < 192) by lia.
      replace (b =? 0x3F) with false by lia. replace (b =? 0x3C) with false by lia.
      replace (b =? 0x3E) with false by lia. replace (b <? 0x40) with false by lia.
      replace (b <? 0x80) with false by lia. replace (b <? 0xC0) with true by lia.
      cbn [map]. do 3 f_equal. unfold function_group_call. replace (b <? 0xA0) with false by lia.
      replace (b <? 0xB0) with false by lia.
      replace (b mod 16) with s by lia. reflexivity.
    - set (b := 160 + s). assert (H : 160 <= b < 176) by lia.
      replace (b =? 0x3F) with false by lia. replace (b =? 0x3C) with false by lia.
      replace (b =? 0x3E) with false by lia. replace (b <? 0x40) with false by lia.
      replace (b <? 0x80) with false by lia. replace (b <? 0xC0) with true by lia.
      cbn [map]. do 3 f_equal. unfold function_group_call. replace (b <? 0xA0) with false by lia.
      replace (b <? 0xB0) with true by lia.
      replace (b mod 16) with s by lia. reflexivity.
    - reflexivity.
    - reflexivity.
    - reflexivity.
    - reflexivity.
  Qed.

  (** ** CVs *)

  (** The access a CV command asks for *)
  Definition asked (d : loco_cmd) : list access :=
    match d with
    | CVerify a b => [Check a b]
    | CWrite a b => [Store a b]
    | CVerifyBit a b k => [CheckBit a b k]
    | CWriteBit a b k => [StoreBit a b k]
    | _ => []
    end.

  Lemma request_payload : forall d, cmd_ok d -> on_cvs d = true ->
    exists b0 b1 b2, payload d = [b0; b1; b2] /\ 0xE0 <= b0 < 0xF0 /\ request b0 b1 b2 = asked d.
  Proof.
    intros d Hd Hc. destruct d; try discriminate; cbn [cmd_ok payload asked] in *; do 3 eexists;
      (split; [reflexivity|]); (split; [lia|]); destruct Hd as [Ha Hp]; unfold request.
    - replace ((228 + cv / 256) / 4 mod 4) with 1 by lia. do 2 f_equal. lia.
    - replace ((236 + cv / 256) / 4 mod 4) with 3 by lia. do 2 f_equal. lia.
    - replace ((232 + cv / 256) / 4 mod 4) with 2 by lia.
      replace (256 * ((232 + cv / 256) mod 4) + cv mod 256) with cv by lia.
      replace ((224 + 8 * Z.b2z bit + pos) mod 8) with pos by (destruct bit; cbn [Z.b2z]; lia).
      replace (bit_of (224 + 8 * Z.b2z bit + pos) 4) with false.
      + do 2 f_equal. unfold bit_of. change (2 ^ 3) with 8.
        replace ((224 + 8 * Z.b2z bit + pos) / 8) with (28 + Z.b2z bit) by (destruct bit; cbn [Z.b2z]; lia).
        destruct bit; reflexivity.
      + unfold bit_of. change (2 ^ 4) with 16.
        replace ((224 + 8 * Z.b2z bit + pos) / 16) with 14 by (destruct bit; cbn [Z.b2z]; lia). reflexivity.
    - replace ((232 + cv / 256) / 4 mod 4) with 2 by lia.
      replace (256 * ((232 + cv / 256) mod 4) + cv mod 256) with cv by lia.
      replace ((240 + 8 * Z.b2z bit + pos) mod 8) with pos by (destruct bit; cbn [Z.b2z]; lia).
      replace (bit_of (240 + 8 * Z.b2z bit + pos) 4) with true.
      + do 2 f_equal. unfold bit_of. change (2 ^ 3) with 8.
        replace ((240 + 8 * Z.b2z bit + pos) / 8) with (30 + Z.b2z bit) by (destruct bit; cbn [Z.b2z]; lia).
        destruct bit; reflexivity.
      + unfold bit_of. change (2 ^ 4) with 16.
        replace ((240 + 8 * Z.b2z bit + pos) / 16) with 15 by (destruct bit; cbn [Z.b2z]; lia). reflexivity.
  Qed.

  Lemma obey_cv : forall n d v, order_ok (n, d) -> v_service v = false -> on_cvs d = true ->
    obey ew (frame n (payload d)) v =
    if answers (v_cvs v) n && negb (negb (n =? 0) && (n =? aval (consist_address (v_cvs v)))) then
      let v1 := count (frame n (payload d)) v in perform_all (flat_map (due (v_times v1)) (asked d)) v1
    else (v, []).
  Proof.
    intros n d v [Hn Hd] Hv Hc. cbn [fst snd] in *. pose proof (payload_byte d Hd) as Hb.
    unfold obey. rewrite Hv. unfold operations. rewrite recipient_frame, body_frame by assumption.
    destruct (answers (v_cvs v) n); [|reflexivity]. cbn [andb].
    destruct (request_payload d Hd Hc) as (b0 & b1 & b2 & E & R & Q).
    rewrite <- Q. generalize (xor_all (wire_head n ++ payload d)). intros ck.
    rewrite E at 1. cbn [List.app nth].
    replace (b0 <? 0x10) with false by lia. replace (b0 <? 0x20) with false by lia.
    replace (b0 <? 0xE0) with false by lia. replace (b0 <? 0xF0) with true by lia.
    destruct (negb (n =? 0) && (n =? aval (consist_address (v_cvs v)))); reflexivity.
  Qed.

  (** ** Commands *)

  Definition tracks (mem : memory) (v : view) : Prop :=
    v_service v = false /\ v_cvs v = fst mem /\
    match snd mem with
    | None => v_last v = []
    | Some o => order_ok o /\ v_last v = packet_of o /\ (if is_write (snd o) then 2 <= v_times v else 1 <= v_times v)%nat
    end.

  Lemma frame_not_nil : forall n pl, frame n pl <> [].
  Proof. intros n pl. unfold frame, wire_head. destruct (n <=? 127); discriminate. Qed.

  Lemma same_last : forall mem v n d, tracks mem v -> order_ok (n, d) ->
    same (snd mem) n d = (if list_eq_dec Z.eq_dec (v_last v) (frame n (payload d)) then true else false).
  Proof.
    intros [c last] v n d (_ & _ & H) Ho. cbn [snd] in *. destruct last as [[n' d']|]; cbn [same].
    - destruct H as (Ho' & HL & _). rewrite HL. unfold packet_of. cbn [fst snd].
      destruct (list_eq_dec Z.eq_dec (frame n' (payload d')) (frame n (payload d))) as [Q|Q].
      + destruct (frame_injective _ _ _ _ Ho' Ho Q) as [-> ->]. rewrite (Z.eqb_refl n). cbn [andb]. destruct (cmd_eq_dec d d); [reflexivity|contradiction].
      + destruct (Z.eqb_spec n' n) as [->|Hn]; [|reflexivity]. cbn [andb]. destruct (cmd_eq_dec d' d) as [->|]; [contradiction|reflexivity].
    - rewrite H. destruct (list_eq_dec Z.eq_dec [] (frame n (payload d))) as [Q|]; [|reflexivity].
      symmetry in Q. destruct (frame_not_nil _ _ Q).
  Qed.

  Lemma perform_quiet : forall x v, v_service v = false ->
    perform x v = if permitted (cvs_locked (switches (v_cvs v))) x then (with_cvs (after x (v_cvs v)) v, [Access x]) else (v, []).
  Proof. intros x v Hv. unfold perform. rewrite Hv. reflexivity. Qed.

  Lemma count_again : forall p v, v_last (count p (count p v)) = p /\ v_times (count p (count p v)) = S (v_times (count p v)) /\
    v_service (count p (count p v)) = v_service v /\ v_cvs (count p (count p v)) = v_cvs v.
  Proof.
    intros p v. unfold count at 1 3 5 6. cbn [v_last v_times v_service v_cvs].
    split; [reflexivity|]. split; [|auto]. unfold count at 1. cbn [v_last].
    destruct (list_eq_dec Z.eq_dec p p); [reflexivity|congruence].
  Qed.

  Lemma order_step : forall o mem v, order_ok o -> tracks mem v ->
    let x := obey_all ew (repeat (packet_of o) (if is_write (snd o) then 2 else 1)) v in
    tracks (fst (carry_out o mem)) (fst x) /\ snd x = snd (carry_out o mem).
  Proof.
    intros [n d] mem v Ho Ht x. subst x. cbn [snd]. unfold packet_of. cbn [fst snd].
    pose proof (same_last mem v n d Ht Ho) as Hsame.
    destruct mem as [c last]. cbn [carry_out]. destruct Ht as (Hs & Hc & HL). cbn [fst snd] in *.
    destruct (on_cvs d) eqn:Ed; cbn [negb].
    2: { assert (Hw : is_write d = false) by (destruct d; (reflexivity || discriminate)). rewrite Hw. cbn [repeat obey_all].
         rewrite obey_driving by assumption. cbn [fst snd]. rewrite app_nil_r, Hc.
         destruct (answers c n); cbn [negb fst snd]; (split; [split; [|split]; assumption|reflexivity]). }
    destruct (answers c n && negb (negb (n =? 0) && (n =? aval (consist_address c)))) eqn:Ea.
    2: { assert (Hno : forall k, obey_all ew (repeat (frame n (payload d)) k) v = (v, [])).
         { induction k as [|k IH]; [reflexivity|]. cbn [repeat obey_all].
           rewrite obey_cv by assumption. rewrite Hc, Ea, IH. reflexivity. }
         rewrite Hno. destruct (answers c n); cbn [negb andb] in *; [|split; [split; [|split]; assumption|reflexivity]].
         apply negb_false_iff in Ea. rewrite Ea. cbn [fst snd]. split; [split; [|split]; assumption|reflexivity]. }
    destruct (answers c n) eqn:Ha; [|discriminate]. cbn [negb andb] in *. apply negb_true_iff in Ea. rewrite Ea.
    set (p := frame n (payload d)) in *.
    assert (Hobey : forall w, v_service w = false -> v_cvs w = c ->
      obey ew p w = perform_all (flat_map (due (v_times (count p w))) (asked d)) (count p w)).
    { intros w H1 H2. unfold p. rewrite obey_cv by assumption. rewrite H2, Ha, Ea. reflexivity. }
    assert (Hcheck : forall x w, v_service w = false -> v_cvs w = c -> after x c = c ->
      perform_all [x] w = (w, if permitted (cvs_locked (switches c)) x then [Access x] else [])).
    { intros x w H1 H2 H3. cbn [perform_all]. rewrite perform_quiet by assumption. rewrite H2, H3.
      destruct (permitted _ x); [|reflexivity]. cbn [List.app]. destruct w; cbn in *; subst; reflexivity. }
    assert (Hcs : v_service (count p v) = false /\ v_cvs (count p v) = c) by (split; assumption).
    destruct Hcs as [Hcs Hcc].
    rewrite Hsame. clear Hsame.
    assert (Hpo : packet_of (n, d) = p) by reflexivity.
    assert (Hdone : forall w xs, v_service w = false -> v_cvs w = fold_left (fun c x => after x c) xs c -> v_last w = p ->
      (if is_write d then 2 <= v_times w else 1 <= v_times w)%nat ->
      tracks (fold_left (fun c x => after x c) xs c, Some (n, d)) w).
    { intros w xs H1 H2 H3 H4. split; [exact H1|]. split; [exact H2|]. cbn [snd]. rewrite Hpo. auto. }
    assert (Ht1 : (1 <= v_times (count p v))%nat) by (unfold count; cbn [v_times]; destruct (list_eq_dec Z.eq_dec (v_last v) p); lia).
    destruct d; try discriminate; cbn [is_write asked flat_map repeat obey_all wanted] in *.
    - (* verify *)
      rewrite Hobey by assumption. cbn [due List.app]. rewrite Hcheck by auto. cbn [fst snd]. rewrite app_nil_r.
      split; [|cbn [filter]; destruct (permitted _ _); reflexivity].
      apply Hdone; auto. cbn [filter]. destruct (permitted _ _); assumption.
    - (* write *)
      rewrite (Hobey v) by assumption. destruct (list_eq_dec Z.eq_dec (v_last v) p) as [Q|Q].
      + assert (Ht2 : (2 <= v_times v)%nat).
        { destruct last as [[n' d']|].
          - destruct HL as (Ho' & HL & HT). rewrite Q in HL. cbn [snd] in HT.
            destruct (frame_injective _ _ _ _ Ho Ho' HL) as [_ <-]. exact HT.
          - rewrite HL in Q. symmetry in Q. destruct (frame_not_nil _ _ Q). }
        assert (Et : exists k, v_times (count p v) = S (S (S k))).
        { unfold count. cbn [v_times]. destruct (list_eq_dec Z.eq_dec (v_last v) p); [|contradiction].
          destruct (v_times v) as [|[|k]]; [lia|lia|]. exists k. reflexivity. }
        destruct Et as (k & Et). rewrite Et. cbn [due List.app]. rewrite Hcheck by auto.
        rewrite (Hobey (count p v)) by assumption.
        destruct (count_again p v) as (L1 & L2 & L3 & L4). rewrite L2, Et. cbn [due List.app].
        rewrite Hcheck by (auto; congruence). cbn [fst snd]. rewrite app_nil_r. cbn [filter].
        destruct (permitted (cvs_locked (switches c)) (Check cv b)); (split; [|reflexivity]);
          apply Hdone; try assumption; try (rewrite L3; assumption); try (rewrite L4; exact Hc); rewrite L2; lia.
      + assert (Et : v_times (count p v) = 1%nat).
        { unfold count. cbn [v_times]. destruct (list_eq_dec Z.eq_dec (v_last v) p); [contradiction|reflexivity]. }
        rewrite Et. cbn [due List.app perform_all].
        rewrite (Hobey (count p v)) by assumption.
        destruct (count_again p v) as (L1 & L2 & L3 & L4). rewrite L2, Et. cbn [due List.app perform_all].
        rewrite perform_quiet by (rewrite L3; assumption). rewrite L4, Hc. cbn [filter].
        destruct (permitted (cvs_locked (switches c)) (Store cv b)); cbn [fst snd List.app]; (split; [|reflexivity]);
          apply Hdone; cbn [with_cvs v_service v_cvs v_last v_times fold_left];
          try assumption; try (rewrite L3; assumption); try (rewrite L4; exact Hc); try reflexivity; rewrite L2; lia.
    - rewrite Hobey by assumption. cbn [due List.app]. rewrite Hcheck by auto. cbn [fst snd]. rewrite app_nil_r.
      split; [|cbn [filter]; destruct (permitted _ _); reflexivity].
      apply Hdone; auto. cbn [filter]. destruct (permitted _ _); assumption.
    - (* write bit *)
      rewrite (Hobey v) by assumption. destruct (list_eq_dec Z.eq_dec (v_last v) p) as [Q|Q].
      + assert (Ht2 : (2 <= v_times v)%nat).
        { destruct last as [[n' d']|].
          - destruct HL as (Ho' & HL & HT). rewrite Q in HL. cbn [snd] in HT.
            destruct (frame_injective _ _ _ _ Ho Ho' HL) as [_ <-]. exact HT.
          - rewrite HL in Q. symmetry in Q. destruct (frame_not_nil _ _ Q). }
        assert (Et : exists k, v_times (count p v) = S (S (S k))).
        { unfold count. cbn [v_times]. destruct (list_eq_dec Z.eq_dec (v_last v) p); [|contradiction].
          destruct (v_times v) as [|[|k]]; [lia|lia|]. exists k. reflexivity. }
        destruct Et as (k & Et). rewrite Et. cbn [due List.app perform_all].
        rewrite (Hobey (count p v)) by assumption.
        destruct (count_again p v) as (L1 & L2 & L3 & L4). rewrite L2, Et. cbn [due List.app perform_all fst snd filter].
        split; [|reflexivity].
        apply Hdone; try assumption; try (rewrite L3; assumption); try (rewrite L4; exact Hc); rewrite L2; lia.
      + assert (Et : v_times (count p v) = 1%nat).
        { unfold count. cbn [v_times]. destruct (list_eq_dec Z.eq_dec (v_last v) p); [contradiction|reflexivity]. }
        rewrite Et. cbn [due List.app perform_all].
        rewrite (Hobey (count p v)) by assumption.
        destruct (count_again p v) as (L1 & L2 & L3 & L4). rewrite L2, Et. cbn [due List.app perform_all].
        rewrite perform_quiet by (rewrite L3; assumption). rewrite L4, Hc. cbn [filter].
        destruct (permitted (cvs_locked (switches c)) (StoreBit cv bit pos)); cbn [fst snd List.app]; (split; [|reflexivity]);
          apply Hdone; cbn [with_cvs v_service v_cvs v_last v_times fold_left];
          try assumption; try (rewrite L3; assumption); try (rewrite L4; exact Hc); try reflexivity; rewrite L2; lia.
  Qed.
End Orders.
