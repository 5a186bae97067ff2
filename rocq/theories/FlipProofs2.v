(** Packets disturbed on the track: what a decoder makes of them *)
From Verif Require Import Prelude Address ZBits SpecCodec RxState Rx CodecProofs RxLogic SpecRx
  RxBitProofs RxBitProofs2 RxBitProofs3 RxBitProofs4 RxBitProofs5 SpecFlip FlipProofs.

Lemma xor_all_app : forall a b, xor_all (a ++ b) = Z.lxor (xor_all a) (xor_all b).
Proof. induction a as [|x a IH]; intros b; [reflexivity|]. change (xor_all ((x :: a) ++ b)) with (Z.lxor x (xor_all (a ++ b))).
  rewrite IH. change (xor_all (x :: a)) with (Z.lxor x (xor_all a)). symmetry. apply Z.lxor_assoc. Qed.

Lemma xor_damaged : forall a b b' c, xor_all (a ++ b :: c) = 0 -> b' <> b -> xor_all (a ++ b' :: c) <> 0.
Proof.
  intros a b b' c H Hb H'. apply Hb. rewrite xor_all_app in H, H'. change (xor_all (b :: c)) with (Z.lxor b (xor_all c)) in H.
  change (xor_all (b' :: c)) with (Z.lxor b' (xor_all c)) in H'.
  apply Z.lxor_eq in H, H'. rewrite H' in H.
  apply (f_equal (fun x => Z.lxor x (xor_all c))) in H. rewrite !Z.lxor_assoc, Z.lxor_nilpotent, !Z.lxor_0_r in H. exact H.
Qed.

(** ** Bits and places *)

Lemma flip_app2 : forall a b k, (length a <= k)%nat -> flip k (a ++ b) = a ++ flip (k - length a) b.
Proof.
  intros a b k H. unfold flip. rewrite firstn_app, !skipn_app, (firstn_all2 a) by lia.
  rewrite (skipn_all2 a) by lia. rewrite (skipn_all2 a) by lia. cbn [List.app].
  rewrite <- app_assoc. replace (S k - length a)%nat with (S (k - length a)) by lia. reflexivity.
Qed.
Lemma flip_app1 : forall a b k, (k < length a)%nat -> flip k (a ++ b) = flip k a ++ b.
Proof.
  intros a b k H. unfold flip. rewrite firstn_app, !skipn_app. replace (k - length a)%nat with 0%nat by lia.
  replace (S k - length a)%nat with 0%nat by lia. rewrite !skipn_O, firstn_O, app_nil_r.
  rewrite (firstn_app 1 (skipn k a)). replace (1 - length (skipn k a))%nat with 0%nat by (rewrite skipn_length; lia).
  rewrite firstn_O, app_nil_r, <- !app_assoc. reflexivity.
Qed.
Lemma flip_length : forall k l, (k < length l)%nat -> length (flip k l) = length l.
Proof.
  intros k l H. unfold flip. rewrite !app_length, map_length, !firstn_length, !skipn_length. lia.
Qed.
Lemma flip_differs : forall k l, (k < length l)%nat -> flip k l <> l.
Proof.
  intros k l H He. apply (f_equal (fun x => nth k x true)) in He. unfold flip in He.
  rewrite app_nth2 in He by (rewrite firstn_length; lia). rewrite firstn_length in He.
  replace (k - Nat.min k (length l))%nat with 0%nat in He by lia.
  destruct (skipn k l) as [|x r] eqn:Es.
  - apply (f_equal (@length bool)) in Es. rewrite skipn_length in Es. cbn in Es. lia.
  - cbn in He. rewrite <- (firstn_skipn k l) in He at 1. rewrite app_nth2 in He by (rewrite firstn_length; lia).
    rewrite firstn_length in He. replace (k - Nat.min k (length l))%nat with 0%nat in He by lia.
    rewrite Es in He. cbn in He. destruct x; discriminate He.
Qed.

Definition framed (bs : list Z) : list bool := flat_map (fun b => false :: msb_first b) bs.
Lemma framed_length : forall bs, length (framed bs) = (9 * length bs)%nat.
Proof. induction bs as [|b bs IH]; [reflexivity|]. unfold framed in *. cbn [flat_map]. rewrite app_length, IH. cbn [length]. change (length (msb_first b)) with 8%nat. lia. Qed.
Lemma framed_app : forall a b, framed (a ++ b) = framed a ++ framed b.
Proof. intros. apply flat_map_app. Qed.

Lemma split_at : forall (bs : list Z) j, (j < length bs)%nat -> exists b c, bs = firstn j bs ++ b :: c /\ length (firstn j bs) = j.
Proof.
  intros bs j H. destruct (skipn j bs) as [|b c] eqn:E.
  - apply (f_equal (@length Z)) in E. rewrite skipn_length in E. cbn in E. lia.
  - exists b, c. rewrite <- E, firstn_skipn. split; [reflexivity|rewrite firstn_length; lia].
Qed.

Lemma flip_data : forall n bs j k, (j < length bs)%nat -> (k < 8)%nat -> exists a b b' c, bs = a ++ b :: c /\
  (Forall byte bs -> b' <> b) /\ byte b' /\ flip (data_bit n j k) (track_bits n bs) = track_bits n (a ++ b' :: c).
Proof.
  intros n bs j k Hj Hk. destruct (split_at bs j Hj) as (b & c & E & Hl). set (a := firstn j bs) in *. clearbody a. subst bs.
  exists a, b, (byte_of (flip k (msb_first b))), c. split; [reflexivity|].
  assert (Hlen : length (flip k (msb_first b)) = 8%nat) by (rewrite flip_length; [reflexivity|exact Hk]).
  split; [|split].
  - intros Hby He. apply Forall_app in Hby. destruct Hby as [_ Hby]. inversion Hby as [|? ? Hb _]; subst.
    apply (f_equal msb_first) in He. rewrite byte_of_msb_first in He by exact Hlen. exact (flip_differs k (msb_first b) Hk He).
  - apply byte_of_byte. exact Hlen.
  - unfold track_bits, data_bit. rewrite flip_app2 by (rewrite repeat_length; lia). f_equal. rewrite repeat_length.
    fold (framed (a ++ b :: c)). fold (framed (a ++ byte_of (flip k (msb_first b)) :: c)). rewrite !framed_app, <- !app_assoc.
    rewrite flip_app2 by (rewrite framed_length; lia). f_equal. rewrite framed_length.
    replace (n + 9 * j + 1 + k - n - 9 * length a)%nat with (S k) by lia.
    change (framed (b :: c)) with ([false] ++ msb_first b ++ framed c).
    rewrite <- app_assoc. rewrite flip_app2 by (cbn; lia).
    change (framed (byte_of (flip k (msb_first b)) :: c)) with ([false] ++ msb_first (byte_of (flip k (msb_first b))) ++ framed c).
    rewrite <- !app_assoc. f_equal. change (S k - length [false])%nat with (k - 0)%nat. rewrite Nat.sub_0_r.
    rewrite flip_app1 by exact Hk. f_equal. symmetry. apply byte_of_msb_first. exact Hlen.
Qed.

Lemma flip_start : forall n bs j, (j < length bs)%nat -> exists b c, bs = firstn j bs ++ b :: c /\
  flip (start_bit n j) (track_bits n bs) = (repeat true n ++ framed (firstn j bs)) ++ [true] ++ msb_first b ++ framed c ++ [true].
Proof.
  intros n bs j Hj. destruct (split_at bs j Hj) as (b & c & E & Hl). exists b, c. split; [exact E|].
  rewrite E at 1. set (a := firstn j bs) in *. clearbody a. unfold track_bits, start_bit.
  rewrite flip_app2 by (rewrite repeat_length; lia). rewrite repeat_length, <- app_assoc. f_equal.
  fold (framed (a ++ b :: c)). rewrite framed_app, <- app_assoc. rewrite flip_app2 by (rewrite framed_length; lia).
  f_equal. rewrite framed_length. replace (n + 9 * j - n - 9 * length a)%nat with 0%nat by lia.
  change (framed (b :: c)) with (false :: msb_first b ++ framed c). rewrite <- app_comm_cons, <- app_assoc. reflexivity.
Qed.

Lemma flip_end : forall n bs, flip (end_bit n bs) (track_bits n bs) = (repeat true n ++ framed bs) ++ [false].
Proof.
  intros n bs. unfold track_bits, end_bit. rewrite flip_app2 by (rewrite repeat_length; lia). rewrite repeat_length, <- app_assoc. f_equal.
  fold (framed bs). rewrite flip_app2 by (rewrite framed_length; lia). f_equal. rewrite framed_length.
  replace (n + 9 * length bs - n - 9 * length bs)%nat with 0%nat by lia. reflexivity.
Qed.

Lemma plays_split : forall ts a b, plays_bits ts (a ++ b) -> exists t1 t2, ts = t1 ++ t2 /\ plays_bits t1 a /\ plays_bits t2 b.
Proof.
  intros ts a b H. unfold plays_bits in H. rewrite !doubled_bits, doubled_app in H.
  destruct (map_Some_app_inv _ _ _ H) as (t1 & t2 & -> & H1 & H2). exists t1, t2. split; [reflexivity|split; assumption].
Qed.

Lemma silent_ends : forall f hs f', silent false f hs f' -> hs <> [] -> f_packet_end f' = false.
Proof.
  intros f hs f' H. induction H as [f|f b f1 hs f2 Hm H IH]; intros Hn; [congruence|].
  destruct hs as [|x hs]; [|apply IH; discriminate]. inversion H; subst. clear - Hm.
  destruct f as [ph bc by_ ck hb pk pe]. unfold machine_hb, machine_bit in Hm. destruct ph, b, hb; cbn -[Nat.ltb Nat.leb u8] in Hm;
  repeat match goal with H : context [if ?c then _ else _] |- _ => destruct c end; try discriminate Hm; inversion Hm; reflexivity.
Qed.

Section Flip.
  Context {I : Type} (E : Env I).
  Implicit Types s : st I.

  Lemma run_damaged : forall i os s es bs n ts, run E os (st0 i) = Ok (tt, s, es) -> f_state (r_fsm (rxs s)) = Preamble ->
    (length (r_deque (rxs s)) < 31)%nat -> Forall byte bs -> (1 <= length bs <= 18)%nat -> valid_packet bs = false ->
    (10 <= n)%nat -> plays ts n bs ->
    exists s', run E (map OReceive ts) s = Ok (tt, s', []) /\ left_alone s s' [].
  Proof.
    intros i os s es bs n ts Hrun Hp Hd Hby Hl Hv Hn Hpl.
    pose proof (run_refines E os _ _ _ _ (Rl0 i) Hrun) as HR.
    destruct (Rl_preamble _ _ HR Hp) as (m & hb & pk & pe & Hf).
    unfold plays, track_bits in Hpl. rewrite app_assoc in Hpl.
    destruct (plays_split ts _ _ Hpl) as (t1 & t2 & -> & H1 & H2).
    eexists. rewrite map_app. split.
    - rewrite (run_ops_app E (map OReceive t1) _ s _ [] (run_bytes E bs t1 n m hb pk pe s Hby Hl Hf Hn Hd H1)).
      rewrite (run_reject E bs t2 s Hd Hv H2). reflexivity.
    - unfold left_alone. rewrite app_nil_r. destruct s as [[] a p]. repeat split.
  Qed.

  Lemma damaged : forall i os s es a b b' c n ts, run E os (st0 i) = Ok (tt, s, es) -> f_state (r_fsm (rxs s)) = Preamble ->
    (length (r_deque (rxs s)) < 31)%nat -> packet_ok (a ++ b :: c) -> byte b' -> b' <> b ->
    (10 <= n)%nat -> plays ts n (a ++ b' :: c) ->
    exists s', run E (map OReceive ts) s = Ok (tt, s', []) /\ left_alone s s' [].
  Proof.
    intros i os s es a b b' c n ts Hrun Hp Hd (Hby & Hl & Hx & _) Hb Hne Hn Hpl.
    apply (run_damaged i os s es (a ++ b' :: c) n ts Hrun Hp Hd); [| | |exact Hn|exact Hpl].
    - apply Forall_app in Hby. destruct Hby as [Ha Hbc]. inversion Hbc; subst. apply Forall_app. split; [exact Ha|constructor; assumption].
    - rewrite app_length in *. cbn [length] in *. lia.
    - unfold valid_packet. replace (xor_all (a ++ b' :: c) =? 0) with false; [reflexivity|].
      symmetry. apply Z.eqb_neq. exact (xor_damaged a b b' c Hx Hne).
  Qed.

  Lemma flipped_data : forall i os s es bs n j k ts, run E os (st0 i) = Ok (tt, s, es) -> f_state (r_fsm (rxs s)) = Preamble ->
    (length (r_deque (rxs s)) < 31)%nat -> packet_ok bs -> (10 <= n)%nat -> (j < length bs)%nat -> (k < 8)%nat ->
    plays_bits ts (flip (data_bit n j k) (track_bits n bs)) ->
    exists s', run E (map OReceive ts) s = Ok (tt, s', []) /\ left_alone s s' [].
  Proof.
    intros i os s es bs n j k ts Hrun Hp Hd Hok Hn Hj Hk Hpl.
    destruct (flip_data n bs j k Hj Hk) as (a & b & b' & c & -> & Hne & Hb & E'). rewrite E' in Hpl.
    exact (damaged i os s es a b b' c n ts Hrun Hp Hd Hok Hb (Hne (proj1 Hok)) Hn Hpl).
  Qed.

  Lemma flipped_start : forall i os s es bs n j ts, run E os (st0 i) = Ok (tt, s, es) -> f_state (r_fsm (rxs s)) = Preamble ->
    (length (r_deque (rxs s)) < 30)%nat -> packet_ok bs -> (10 <= n)%nat -> (1 <= j < length bs)%nat ->
    plays_bits ts (flip (start_bit n j) (track_bits n bs)) ->
    exists s', run E (map OReceive ts) s = Ok (tt, s', []) /\
      left_alone s s' (if valid_packet (firstn j bs) then [firstn j bs] else []).
  Proof.
    intros i os s es bs n j ts Hrun Hp Hd (Hby & Hl & Hx & Hlg) Hn Hj Hpl.
    pose proof (run_refines E os _ _ _ _ (Rl0 i) Hrun) as HR.
    destruct (Rl_preamble _ _ HR Hp) as (m & hb & pk & pe & Hf).
    destruct (flip_start n bs j ltac:(lia)) as (b & c & Ebs & Efl). rewrite Efl in Hpl. set (a := firstn j bs) in *.
    assert (Ha : Forall byte a) by (rewrite Ebs in Hby; apply Forall_app in Hby; apply Hby).
    assert (Hla : length a = j) by (unfold a; rewrite firstn_length; lia).
    assert (Hlga : is_logon a = false) by (rewrite Ebs in Hlg; destruct a; [cbn in Hla; lia|exact Hlg]).
    destruct (plays_split ts _ _ Hpl) as (t1 & tr & -> & H1 & Hpl2).
    destruct (plays_split tr _ _ Hpl2) as (t2 & t3 & -> & H2 & H3).
    rewrite !map_app.
    rewrite (run_ops_app E (map OReceive t1) _ s _ [] (run_bytes E a t1 n m hb pk pe s Ha ltac:(lia) Hf Hn ltac:(lia) H1)).
    assert (Hrest : forall s2, between (r_fsm (rxs s2)) -> (length (r_deque (rxs s2)) < 31)%nat ->
      exists f', run E (map OReceive t3) s2 = Ok (tt, with_fsm f' s2, []) /\ f_state f' = Preamble /\ f_packet_end f' = false).
    { intros s2 (B1 & B2 & B3 & B4) Hd2. assert (Hfull : full s2 = false) by (unfold full; apply Nat.eqb_neq; lia).
      assert (Hs : exists f', silent false (r_fsm (rxs s2)) (doubled (msb_first b ++ framed c ++ [true])) f' /\ f_state f' = Preamble).
      { rewrite doubled_app.
        destruct (silent_few (doubled (msb_first b)) (r_fsm (rxs s2)) 0) as (f1 & S1 & I1); [repeat split; auto; lia|cbn; lia|].
        destruct c as [|x c].
        - destruct (silent_few (doubled ([] ++ [true])) f1 16) as (f2 & S2 & I2); [exact I1|cbn; lia|].
          exists f2. split; [eapply silent_app; [exact S1|exact S2]|apply I2].
        - destruct (silent_missed (x :: c) f1) as (f2 & S2 & I2); [discriminate| |].
          + destruct I1 as (A & B & C & D). repeat split; auto.
          + exists f2. split; [eapply silent_app; [exact S1|exact S2]|apply I2]. }
      destruct Hs as (f' & Hs & Hst). exists f'. split; [|split; [exact Hst|]].
      - apply (run_silent E (doubled (msb_first b ++ framed c ++ [true]))); [exact H3|rewrite Hfull; exact Hs].
      - apply (silent_ends _ _ _ Hs). destruct (msb_first_cons b) as (b7 & b6 & b5 & b4 & b3 & b2 & b1 & b0 & ->). discriminate. }
    destruct (valid_packet a) eqn:Hv.
    - rewrite (run_ops_app E (map OReceive t2) _ _ _ [] (run_accept E a t2 s ltac:(lia) Hv Ha Hlga H2)).
      match goal with |- context [run E (map OReceive t3) ?x] => destruct (Hrest x) as (f' & -> & Hst & Hpe) end.
      + repeat split.
      + destruct s as [[] ? ?]. cbn in *. rewrite app_length. cbn. lia.
      + eexists. split; [reflexivity|]. destruct s as [[] ? ?]. split; [exact Hst|]. split; [exact Hpe|]. split; reflexivity.
    - rewrite (run_ops_app E (map OReceive t2) _ _ _ [] (run_reject E a t2 s ltac:(lia) Hv H2)).
      match goal with |- context [run E (map OReceive t3) ?x] => destruct (Hrest x) as (f' & -> & Hst & Hpe) end.
      + repeat split.
      + destruct s as [[] ? ?]. cbn in *. lia.
      + eexists. split; [reflexivity|]. destruct s as [[] ? ?]. split; [exact Hst|]. split; [exact Hpe|].
        split; [rewrite app_nil_r|]; reflexivity.
  Qed.

  Lemma flipped_end : forall i os s es bs n g m ts, run E os (st0 i) = Ok (tt, s, es) -> f_state (r_fsm (rxs s)) = Preamble ->
    (length (r_deque (rxs s)) < 31)%nat -> packet_ok bs -> (length bs < 18)%nat -> (10 <= n)%nat -> (g <= 1)%nat -> (9 <= m + g)%nat ->
    plays_bits ts (flip (end_bit n bs) (track_bits n bs) ++ repeat false g ++ repeat true m) ->
    exists s', run E (map OReceive ts) s = Ok (tt, s', []) /\ left_alone s s' [].
  Proof.
    intros i os s es bs n g m ts Hrun Hp Hd (Hby & Hl & Hx & Hlg) Hl2 Hn Hg Hm Hpl.
    pose proof (run_refines E os _ _ _ _ (Rl0 i) Hrun) as HR.
    destruct (Rl_preamble _ _ HR Hp) as (m0 & hb & pk & pe & Hf).
    set (x := if (g =? 0)%nat then 255 else 127).
    assert (Hbx : byte x) by (unfold x, byte; destruct (g =? 0)%nat; lia).
    assert (Ebits : flip (end_bit n bs) (track_bits n bs) ++ repeat false g ++ repeat true m
      = (repeat true n ++ framed (bs ++ [x])) ++ [true] ++ repeat true (m + g - 9)).
    { rewrite flip_end, framed_app, <- !app_assoc. do 2 f_equal.
      destruct g as [|[|g]]; [| |lia].
      - replace m with (9 + (m + 0 - 9))%nat at 1 by lia. rewrite repeat_app. reflexivity.
      - replace m with (8 + (m + 1 - 9))%nat at 1 by lia. rewrite repeat_app. reflexivity. }
    rewrite Ebits in Hpl.
    destruct (plays_split ts _ _ Hpl) as (t1 & tr & -> & H1 & Hpl2).
    destruct (plays_split tr _ _ Hpl2) as (t2 & t3 & -> & H2 & H3).
    assert (Hv : valid_packet (bs ++ [x]) = false).
    { unfold valid_packet. rewrite xor_all_snoc, Hx, Z.lxor_0_l. unfold x. destruct (g =? 0)%nat; reflexivity. }
    rewrite !map_app.
    rewrite (run_ops_app E (map OReceive t1) _ s _ []
      (run_bytes E (bs ++ [x]) t1 n m0 hb pk pe s ltac:(apply Forall_app; auto) ltac:(rewrite app_length; cbn; lia) Hf Hn Hd H1)).
    rewrite (run_ops_app E (map OReceive t2) _ _ _ [] (run_reject E (bs ++ [x]) t2 s Hd Hv H2)).
    match goal with |- context [run E (map OReceive t3) ?x] => set (s2 := x) end.
    unfold plays_bits in H3. rewrite doubled_bits, doubled_ones in H3.
    destruct (Nat.eq_dec (m + g) 9) as [E9|E9].
    - replace (m + g - 9)%nat with 0%nat in H3 by lia. destruct t3; [|discriminate H3]. exists s2. split; [reflexivity|].
      unfold left_alone. rewrite app_nil_r. destruct s as [[] ? ?]. repeat split.
    - assert (Hfull : full s2 = false) by (unfold full; apply Nat.eqb_neq; destruct s as [[] ? ?]; cbn in *; lia).
      rewrite (run_silent E (repeat true (2 * (m + g - 9))) t3 (upd_f_bit_count (0 + 2 * (m + g - 9)) (upd_f_packet_end false (r_fsm (rxs s2)))) s2 H3).
      + eexists. split; [reflexivity|]. unfold left_alone. rewrite app_nil_r. destruct s as [[] ? ?]. repeat split.
      + rewrite Hfull. apply silent_ones; [destruct s as [[] ? ?]; reflexivity|destruct s as [[] ? ?]; reflexivity|lia].
  Qed.
End Flip.
