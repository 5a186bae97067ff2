(** BiDi: quality of service *)
From Verif Require Import Prelude Address Instruction Datagram Packets Backoff RxState Rx ZBits RxLogic RxInv SpecCodec CodecProofs CodecProofs2
  SpecRx RxBitProofs SpecExec ExecProofs SpecConf SpecCv CvProofs SaneProofs SpecLogon LogonProofs LogonProofs2 LogonProofs3 LogonProofs4 SpecBidi BidiProofs BidiProofs2 BidiProofs3 BidiProofs4.

(** ** Which half bits start or complete a frame *)
Lemma after_ones_all : forall n, after_ones (repeat true n) = [].
Proof. induction n; [reflexivity|]. exact IHn. Qed.

Lemma machine_starts : forall h f full b t, Inv h f -> half_bit t = Some b ->
  (snd (machine full f t) = AStart <->
   negb (looked_at (h ++ [b]) && full) && (20 <=? ones (h ++ [b]))%nat && (length (after_ones (h ++ [b])) =? 2)%nat = true).
Proof.
  intros h f full b t HI Ht. unfold machine. rewrite Ht. destruct f as [ph bc by_ ck hb pk pe]. unfold upd_f_packet_end, upd_f_is_halfbit, Inv in *.
  cbn [f_state f_bit_count f_byte f_checksum f_is_halfbit f_packet f_packet_end] in *.
  assert (N : forall x, snd x <> AStart -> (length (after_ones (h ++ [b])) =? 2)%nat = false ->
    (snd (x : fsm * act) = AStart <-> negb (looked_at (h ++ [b]) && full) && (20 <=? ones (h ++ [b]))%nat && (length (after_ones (h ++ [b])) =? 2)%nat = true)).
  { intros x Hx ->. rewrite andb_false_r. split; [contradiction|discriminate]. }
  destruct ph.
  - destruct HI as (-> & _). apply N.
    + unfold machine_bit. destruct full; [discriminate|]. cbn [f_state f_bit_count]. destruct b; [discriminate|]. destruct (_ <? _)%nat; discriminate.
    + destruct b; [rewrite repeat_snoc, after_ones_all; reflexivity|rewrite after_ones_repeat; reflexivity].
  - destruct HI as (_ & _ & n & Hn & ->). rewrite <- app_assoc. cbn [List.app]. rewrite looked_at_body, body_ones, body_after.
    cbn [length Nat.even andb]. unfold machine_bit. cbn [f_state]. replace (20 <=? n)%nat with true by (symmetry; apply Nat.leb_le; lia).
    destruct full; cbn; intuition discriminate.
  - destruct HI as (_ & _ & _ & n & x & body & bits & Hn & -> & _). apply N.
    + unfold machine_bit. destruct hb; cbn [negb f_is_halfbit]; [|discriminate]. destruct full; [discriminate|].
      cbn [f_state f_bit_count f_packet]. destruct (_ <? 8)%nat; [discriminate|]. destruct (_ <? 18)%nat; discriminate.
    + rewrite <- app_assoc. cbn [List.app]. rewrite body_after. destruct body; reflexivity.
  - destruct HI as (_ & _ & _ & _ & _ & n & x & body & q & bits & Hn & -> & _). apply N.
    + cbv zeta. unfold machine_bit. destruct hb; cbn [negb f_is_halfbit]; [|discriminate]. destruct full; [discriminate|].
      cbn [f_state f_checksum f_packet]. destruct (negb b); [discriminate|]. destruct ((ck =? 0) && (3 <=? length pk)%nat); discriminate.
    + rewrite <- app_assoc. cbn [List.app]. rewrite body_after. destruct body; reflexivity.
Qed.

Section Quality.
  Context {I : Type} (E : Env I).
  Implicit Types s : st I.

  Definition cnt (r : rx) := r_cnt r.
  Lemma cnt_handler : keeps cnt (executeHandlerMode E). Proof. keeps_tac. Qed.
  Lemma cnt_command : keeps cnt (executeCommand E). Proof. keeps_tac. Qed.
  Lemma cnt_adr : keeps cnt (@adr I). Proof. keeps_tac. Qed.
  Lemma cnt_store : keeps cnt (logonStore E). Proof. keeps_tac. Qed.
  Lemma cnt_tp : keeps cnt (updateTimepoints E). Proof. keeps_tac. Qed.
  Lemma cnt_pop : keeps cnt (@popFront I). Proof. keeps_tac. Qed.
  Lemma cnt_dyn_all : forall ds, keeps cnt (@dyn_all I ds).
  Proof. induction ds as [|d ds IH]; [keeps_tac|]. apply keeps_bind; [keeps_tac|intros _; exact IH]. Qed.

  Lemma accept_cnt : forall s u s' es, accept E s = Ok (u, s', es) ->
    r_cnt (rxs s') = r_cnt (set_packet_count (packet_count (r_cnt (rxs s)) + 1) (rxs s)).
  Proof.
    intros s u s' es H. unfold accept in H.
    apply bind_inv in H. destruct H as (u0 & s0 & f1 & f2 & H & H0 & _).
    apply bind_inv in H. destruct H as (u1 & s1 & f3 & f4 & H1 & H & _).
    apply bind_inv in H. destruct H as (u2 & s2 & f5 & f6 & H2 & H & _).
    apply bind_inv in H. destruct H as (a & s3 & f7 & f8 & H3 & H & _).
    apply bind_inv in H. destruct H as (u4 & s4 & f9 & f10 & H4 & H & _).
    apply bind_inv in H. destruct H as (hd & s5 & f11 & f12 & H5 & H & _).
    assert (K0 : keeps cnt (@reset I)) by keeps_tac. apply K0 in H0.
    assert (K1 : cnt (rxs s0) = cnt (rxs s5)).
    { match type of H with ?m s5 = _ => assert (keeps cnt m) as K by keeps_tac end. exact (K _ _ _ _ H). }
    apply cnt_handler in H5. unfold modify in H4. assert (K4 : keeps cnt (modify (I := I) (set_received a))) by keeps_tac.
    apply K4 in H4. assert (K3 : cnt (rxs s3) = cnt (rxs s2)).
    { assert (keeps cnt (lift (I := I) (decode_address (f_packet (r_fsm (rxs s)))))) as K by keeps_tac. exact (K _ _ _ _ H3). }
    unfold cnt in *. rewrite H0, K1, H5, H4, K3. unfold modify in H1, H2. inversion H1; subst s1. inversion H2; subst s2. reflexivity.
  Qed.

  Lemma receive_cnt : forall s t u s' es, receive E t s = Ok (u, s', es) ->
    r_cnt (rxs s') =
    match snd (machine (full s) (r_fsm (rxs s)) t) with
    | AStart => r_cnt (set_preamble_count (preamble_count (r_cnt (rxs s)) + 1) (rxs s))
    | AAccept => r_cnt (set_packet_count (packet_count (r_cnt (rxs s)) + 1) (rxs s))
    | _ => r_cnt (rxs s)
    end.
  Proof.
    intros s t u s' es H. rewrite receive_machine in H. destruct (machine (full s) (r_fsm (rxs s)) t) as [f a]. cbn [snd].
    destruct a; try (inversion H; subst s'; reflexivity); try discriminate.
    apply accept_cnt in H. rewrite H. reflexivity.
  Qed.

  Lemma machine_accepts : forall h f fl b t, Inv h f -> half_bit t = Some b ->
    (snd (machine fl f t) = AAccept <->
     exists bs, looked_at (h ++ [b]) && fl = false /\ reading (h ++ [b]) = Packet bs /\ valid_packet bs = true).
  Proof.
    intros h f fl b t HI Ht. pose proof (machine_sim h f fl b t HI Ht) as M. cbv zeta in M.
    destruct (looked_at (h ++ [b]) && fl).
    - destruct M as (-> & _). split; [discriminate|intros (? & ? & _); discriminate].
    - destruct (reading (h ++ [b])) as [| |bs].
      + split; [|intros (? & _ & ? & _); discriminate]. intros X. destruct M as [[M _]|[[M|M] _]]; congruence.
      + destruct M as (-> & _). split; [discriminate|intros (? & _ & ? & _); discriminate].
      + destruct M as (_ & _ & M). destruct (valid_packet bs) eqn:Ev.
        * destruct M as (-> & _). split; [intros _; exists bs; auto|reflexivity].
        * destruct M as (-> & _). split; [discriminate|]. intros (x & _ & X & Y). congruence.
  Qed.

  Lemma receive_tally : forall l s t u s' es, Rl l s -> receive E t s = Ok (u, s', es) -> tally_of s' = count (OReceive t) l (tally_of s).
  Proof.
    intros l s t u s' es (HI & Hq & _) H. apply receive_cnt in H.
    cbn [count begun completed]. unfold tally_of, quality. rewrite H. clear H.
    destruct (half_bit t) as [b|] eqn:Et.
    - assert (Ef : full s = (length (l_queue l) =? 31)%nat) by (unfold full; rewrite Hq; reflexivity).
      pose proof (machine_starts _ _ (full s) _ _ HI Et) as M1. pose proof (machine_accepts _ _ (full s) _ _ HI Et) as M2.
      rewrite Ef in M1, M2 |- *. cbv zeta.
      destruct (negb (looked_at (l_heard l ++ [b]) && (length (l_queue l) =? 31)%nat) && (20 <=? ones (l_heard l ++ [b]))%nat &&
                (length (after_ones (l_heard l ++ [b])) =? 2)%nat) eqn:Eb.
      + pose proof (proj2 M1 eq_refl) as Ea. rewrite Ea in M2 |- *. cbn [frames packets percent r_cnt set_preamble_count set_r_cnt].
        destruct (looked_at (l_heard l ++ [b]) && (length (l_queue l) =? 31)%nat) eqn:El; [cbn; f_equal; lia|].
        destruct (reading (l_heard l ++ [b])) as [| |bs]; [cbn; f_equal; lia|cbn; f_equal; lia|].
        destruct (valid_packet bs) eqn:Ev; [|cbn; f_equal; lia]. assert (AStart = AAccept) as X by (apply M2; exists bs; auto). discriminate X.
      + assert (Na : snd (machine (length (l_queue l) =? 31)%nat (r_fsm (rxs s)) t) <> AStart) by (intros X; apply M1 in X; discriminate).
        assert (D : (exists bs, looked_at (l_heard l ++ [b]) && (length (l_queue l) =? 31)%nat = false /\ reading (l_heard l ++ [b]) = Packet bs /\ valid_packet bs = true)
          \/ (if looked_at (l_heard l ++ [b]) && (length (l_queue l) =? 31)%nat then None else match reading (l_heard l ++ [b]) with Packet bs => if valid_packet bs then Some bs else None | _ => None end) = None).
        { destruct (looked_at (l_heard l ++ [b]) && (length (l_queue l) =? 31)%nat); [auto|].
          destruct (reading (l_heard l ++ [b])) as [| |bs]; auto. destruct (valid_packet bs) eqn:Ev; [left; exists bs; auto|auto]. }
        destruct D as [D|D].
        * pose proof (proj2 M2 D) as Ea. rewrite Ea. destruct D as (bs & -> & -> & ->). cbn. f_equal; lia.
        * rewrite D. assert (Nb : snd (machine (length (l_queue l) =? 31)%nat (r_fsm (rxs s)) t) <> AAccept).
          { intros X. apply M2 in X. destruct X as (bs & X1 & X2 & X3). rewrite X1, X2, X3 in D. discriminate D. }
          destruct (snd (machine _ _ _)); try contradiction; cbn; f_equal; lia.
    - unfold machine. rewrite Et. cbn. f_equal; lia.
  Qed.

  Lemma execute_tally : forall l s b s' es, Rl l s -> execute E s = Ok (b, s', es) -> tally_of s' = count OExecute l (tally_of s).
  Proof.
    intros l s b s' es (_ & Hq & Hf & _) H. cbn [count]. unfold execute in H. rewrite bind_get in H. rewrite Hf, Hq in H.
    destruct (l_fresh l); [inversion H; subst; reflexivity|]. destruct (l_queue l) as [|p q]; [inversion H; subst; reflexivity|].
    cbn [length Nat.eqb orb] in H.
    apply bind_inv in H. destruct H as (u1 & t1 & f1 & f2 & H1 & H & _).
    apply bind_inv in H. destruct H as (u2 & t2 & f3 & f4 & H2 & H & _).
    apply bind_inv in H. destruct H as (u3 & t3 & f5 & f6 & H3 & H & _).
    apply bind_inv in H. destruct H as (u4 & t4 & f7 & f8 & H4 & H & _).
    apply bind_inv in H. destruct H as (u5 & t5 & f9 & f10 & H5 & H & _).
    apply bind_inv in H. destruct H as (u6 & t6 & f11 & f12 & H6 & H7 & _).
    assert (t6 = s') as -> by (unfold ret in H7; congruence). apply cnt_adr in H1. apply cnt_store in H2. apply cnt_tp in H4. apply cnt_command in H5. apply cnt_pop in H6.
    unfold cnt in *. unfold tally_of, quality. cbn [frames packets percent]. rewrite H6, H5, H4. rewrite <- H1, <- H2.
    unfold updateQos in H3. rewrite bind_get in H3. cbv zeta in H3.
    destruct (Z.ltb_spec (preamble_count (r_cnt (rxs t2))) 100).
    - replace (100 <=? preamble_count (r_cnt (rxs t2))) with false by lia. unfold ret in H3. assert (t3 = t2) as -> by congruence. reflexivity.
    - replace (100 <=? preamble_count (r_cnt (rxs t2))) with true by lia. unfold bind, modify in H3. inversion H3; subst t3. cbn.
      unfold u8. rewrite (Z.mul_comm (packet_count _) 100). reflexivity.
  Qed.

  Lemma other_tally : forall l o s b s' es, (forall t, o <> OReceive t) -> o <> OExecute -> step E o s = Ok (b, s', es) -> tally_of s' = count o l (tally_of s).
  Proof.
    intros l o s b s' es N1 N2 H. assert (K : cnt (rxs s') = cnt (rxs s)).
    { destruct o; try (exfalso; eapply N1; reflexivity); try contradiction; cbn [step] in H;
        try (apply bind_inv in H; destruct H as (u & s1 & e3 & e4 & H & H2 & _); inversion H2; subst; clear H2).
      - assert (keeps cnt (init E)) as K by keeps_tac. exact (K _ _ _ _ H).
      - assert (keeps cnt (@enable I)) as K by keeps_tac. exact (K _ _ _ _ H).
      - assert (keeps cnt (@disable I)) as K by keeps_tac. exact (K _ _ _ _ H).
      - assert (keeps cnt (@datagram I ds)) as K; [|exact (K _ _ _ _ H)].
        unfold datagram. apply keeps_bind; [apply keeps_get|intros r].
        apply keeps_bind; [keeps_tac|intros _]. apply keeps_bind; [apply keeps_get|intros r']. destruct (block_dyn _); [apply keeps_ret|apply cnt_dyn_all].
      - assert (keeps cnt (biDiChannel1 E)) as K by keeps_tac. exact (K _ _ _ _ H).
      - assert (keeps cnt (biDiChannel2 E)) as K by keeps_tac. exact (K _ _ _ _ H).
      - destruct (nth_error (pending s) i) as [c|]; [|inversion H; subst; reflexivity].
        assert (keeps cnt (bind (run_cb E c v) (fun _ => ret false))) as K by keeps_tac. exact (K _ _ _ _ H). }
    unfold cnt in K. unfold tally_of, quality. rewrite K. destruct o; try (exfalso; eapply N1; reflexivity); try contradiction; reflexivity.
  Qed.

  Lemma counted_snoc : forall os o l t, counted (os ++ [o]) l t = count o (listen_all os l) (counted os l t).
  Proof. induction os as [|x os IH]; intros o l t; [reflexivity|]. cbn [List.app counted]. rewrite IH. reflexivity. Qed.

  Lemma tally_run : forall i os s es, run E os (st0 i) = Ok (tt, s, es) -> tally_of s = counted os listener0 tally0.
  Proof.
    intros i os. induction os as [|o os IH] using rev_ind; intros s es H; [inversion H; subst; reflexivity|].
    apply (run_snoc E) in H. destruct H as (s1 & e1 & b & e2 & Hrun & H). rewrite counted_snoc, <- (IH _ _ Hrun).
    pose proof (run_refines E _ _ _ _ _ (Rl0 i) Hrun) as HR.
    destruct o; try (eapply other_tally; [discriminate|discriminate|exact H]).
    - cbn [step] in H. apply bind_inv in H. destruct H as (u & s2 & e3 & e4 & H & H2 & _). inversion H2; subst. exact (receive_tally _ _ _ _ _ _ HR H).
    - exact (execute_tally _ _ _ _ _ HR H).
  Qed.
End Quality.

(** ** Ranges *)
Lemma completed_in_frame : forall o l p, completed o l = Some p -> in_frame l = true /\ in_frame (listen o l) = false.
Proof.
  intros o l p H. destruct o; try discriminate. cbn [completed listen] in *. destruct (half_bit time) as [b|]; [|discriminate]. cbv zeta in H.
  unfold hear. cbv zeta. destruct (looked_at (l_heard l ++ [b]) && (length (l_queue l) =? 31)%nat); [discriminate|]. destruct (reading (l_heard l ++ [b])) as [| |bs] eqn:Er; try discriminate.
  destruct (valid_packet bs) eqn:Ev; [|discriminate]. split; [|reflexivity].
  unfold reading in Er. unfold in_frame.
  assert (A : after_ones (l_heard l ++ [b]) = after_ones (l_heard l) ++ [b] \/ (length (after_ones (l_heard l ++ [b])) <= 1)%nat).
  { clear. induction (l_heard l) as [|[|] h IH]; [right; destruct b; cbn; lia|exact IH|left; reflexivity]. }
  destruct A as [A|A].
  - rewrite A in Er. destruct (after_ones (l_heard l)) as [|x [|y r]]; [cbn [List.app] in Er; destruct (_ <? 20)%nat; discriminate| |reflexivity].
    cbn [List.app] in Er. destruct (_ <? 20)%nat; [discriminate|]. cbn [samples] in Er. change (bytes_of []) with (@nil Z, false) in Er. discriminate.
  - destruct (after_ones (l_heard l ++ [b])) as [|x [|y r]]; [discriminate| |cbn [length] in A; lia]. destruct (_ <? 20)%nat; discriminate.
Qed.
Lemma begun_in_frame : forall o l, begun o l = true -> in_frame l = false.
Proof.
  intros o l H. destruct o; try discriminate. cbn [begun] in H. destruct (half_bit time) as [b|]; [|discriminate]. cbv zeta in H.
  apply andb_prop in H. destruct H as [_ H]. apply Nat.eqb_eq in H. unfold in_frame. apply Nat.leb_gt.
  assert (A : length (after_ones (l_heard l ++ [b])) = S (length (after_ones (l_heard l))) \/ (length (after_ones (l_heard l ++ [b])) <= 1)%nat).
  { clear. induction (l_heard l) as [|[|] h IH]; [right; destruct b; cbn; lia|exact IH|left; cbn [List.app after_ones]; rewrite !app_length || idtac].
    change (length ((false :: h) ++ [b]) = S (length (false :: h))). rewrite app_length. cbn [length]. lia. }
  lia.
Qed.
Lemma entered_frame : forall o l, in_frame l = false -> in_frame (listen o l) = true -> begun o l = true.
Proof.
  intros o l H K. destruct o; cbn [listen] in K; try congruence; try (exfalso; unfold in_frame in *; cbn [l_heard] in K; congruence).
  - destruct (l_on l); [discriminate K|congruence].
  - cbn [begun]. destruct (half_bit time) as [b|]; [|unfold in_frame in *; cbn [l_heard] in K; congruence]. cbv zeta.
    unfold hear in K. cbv zeta in K. destruct (looked_at (l_heard l ++ [b]) && (length (l_queue l) =? 31)%nat); [discriminate K|]. cbn [negb andb].
    destruct (reading (l_heard l ++ [b])) as [| |bs] eqn:Er; [|discriminate K|destruct (valid_packet bs); discriminate K].
    unfold in_frame in H, K. cbn [l_heard] in K. apply Nat.leb_gt in H. apply Nat.leb_le in K.
    assert (A : (length (after_ones (l_heard l ++ [b])) <= S (length (after_ones (l_heard l))))%nat).
    { clear. induction (l_heard l) as [|[|] h IH]; [destruct b; cbn; lia|exact IH|].
      change (length ((false :: h) ++ [b]) <= S (length (false :: h)))%nat. rewrite app_length. cbn [length]. lia. }
    replace (length (after_ones (l_heard l ++ [b])) =? 2)%nat with true by (symmetry; apply Nat.eqb_eq; lia). rewrite andb_true_r.
    unfold reading in Er. destruct (after_ones (l_heard l ++ [b])) as [|x r]; [cbn in K; lia|].
    destruct (Nat.ltb_spec (ones (l_heard l ++ [b])) 20); [discriminate|]. apply Nat.leb_le. lia.
  - destruct (l_fresh l); [congruence|]. unfold in_frame in *. cbn [l_heard] in K. congruence.
Qed.

Definition balanced (k : Z) (l : listener) (t : tally) : Prop :=
  0 <= packets t /\ 0 <= frames t /\ packets t <= frames t + k - (if in_frame l then 1 else 0).
Lemma balanced_receive : forall k l t x, balanced k l t -> balanced k (listen (OReceive x) l) (count (OReceive x) l t).
Proof.
  intros k l t x (H1 & H2 & H3). unfold balanced. cbn [count frames packets].
  destruct (completed (OReceive x) l) as [p|] eqn:Ec.
  - destruct (completed_in_frame _ _ _ Ec) as [F1 F2]. rewrite F1 in H3. rewrite F2.
    destruct (begun (OReceive x) l) eqn:Eb; [apply begun_in_frame in Eb; congruence|]. lia.
  - destruct (begun (OReceive x) l) eqn:Eb.
    + rewrite (begun_in_frame _ _ Eb) in H3. destruct (in_frame (listen (OReceive x) l)); lia.
    + destruct (in_frame (listen (OReceive x) l)) eqn:F; [|destruct (in_frame l); lia].
      destruct (in_frame l) eqn:F1; [lia|]. rewrite (entered_frame _ _ F1 F) in Eb. discriminate.
Qed.
Lemma percent_range : forall k n m, 0 <= k <= 1 -> 100 <= n -> 0 <= m <= n + k ->
  let q := (100 - 100 * m / n) mod 256 in 0 <= q <= 100 \/ (k = 1 /\ q = 255 /\ n = 100 /\ m = 101).
Proof.
  intros k n m Hk Hn Hm q. subst q.
  assert (0 <= 100 * m / n) by (apply Z.div_pos; lia).
  destruct (Z.eq_dec m (n + 1)) as [->|Hm1].
  - destruct (Z.eq_dec n 100) as [->|Hn1]; [right; cbn; lia|]. left.
    assert (100 * (n + 1) / n = 100) as -> by (symmetry; apply (Z.div_unique _ _ 100 100); lia). cbn. lia.
  - left. assert (100 * m / n <= 100) by (apply Z.div_le_upper_bound; lia). rewrite Z.mod_small; lia.
Qed.

Definition healthy (t : tally) : Prop := 0 <= percent t <= 100 \/ percent t = 255.
Lemma balanced_other : forall k l t o, balanced k l t -> (forall x, o <> OReceive x) -> o <> OExecute -> 
  balanced k (listen o l) (count o l t) /\ percent (count o l t) = percent t.
Proof.
  intros k l t o (H1 & H2 & H3) N1 N2. unfold balanced.
  destruct o; try (exfalso; eapply N1; reflexivity); try contradiction; cbn [listen count]; split; auto; split; auto; split; auto.
  destruct (l_on l); [|exact H3]. change (in_frame (Listener [] (l_queue l) (l_fresh l) false)) with false. destruct (in_frame l); lia.
Qed.
Lemma balanced_execute : forall k l t, 0 <= k <= 1 -> balanced k l t -> (k = 0 -> in_frame l = false) -> 
  balanced k (listen OExecute l) (count OExecute l t) /\
  (percent (count OExecute l t) = percent t \/ 0 <= percent (count OExecute l t) <= 100 \/ (k = 1 /\ percent (count OExecute l t) = 255)).
Proof.
  intros k l t Hk (H1 & H2 & H3) Hf. assert (F : in_frame (listen OExecute l) = in_frame l) by (cbn [listen]; destruct (l_fresh l); reflexivity).
  unfold balanced. rewrite F. cbn [count]. destruct (l_fresh l); [auto|]. destruct (l_queue l); [auto|].
  destruct (Z.leb_spec 100 (frames t)); [|auto]. cbn [frames packets percent]. split.
  - split; [lia|]. split; [lia|]. assert (k = 0 \/ k = 1) as [->| ->] by lia; [rewrite Hf by reflexivity; lia|destruct (in_frame l); lia].
  - right. pose proof (percent_range k (frames t) (packets t) Hk H) as P. cbv zeta in P.
    destruct P as [P|(P1 & P2 & _)]; [destruct (in_frame l); lia|auto|auto].
Qed.

Lemma healthy_counted : forall os l t, balanced 1 l t -> healthy t -> healthy (counted os l t).
Proof.
  induction os as [|o os IH]; intros l t B Hh; [exact Hh|]. cbn [counted].
  assert (D : (exists x, o = OReceive x) \/ o = OExecute \/ ((forall x, o <> OReceive x) /\ o <> OExecute)).
  { destruct o; try (right; right; split; [intros x|]; discriminate); eauto. }
  destruct D as [[x ->]|[->|[D1 D2]]].
  - apply IH; [apply balanced_receive; exact B|exact Hh].
  - destruct (balanced_execute 1 l t ltac:(lia) B ltac:(lia)) as [B1 P]. apply IH; [exact B1|]. unfold healthy in *. lia.
  - destruct (balanced_other 1 l t o B D1 D2) as [B1 P]. apply IH; [exact B1|]. unfold healthy in *. lia.
Qed.
Lemma calm_counted : forall os l t, balanced 0 l t -> undisturbed os l -> 0 <= percent t <= 100 -> 0 <= percent (counted os l t) <= 100.
Proof.
  induction os as [|o os IH]; intros l t B U Hh; [exact Hh|]. cbn [counted]. destruct U as [U1 U2].
  assert (D : (exists x, o = OReceive x) \/ o = OExecute \/ ((forall x, o <> OReceive x) /\ o <> OExecute)).
  { destruct o; try (right; right; split; [intros x|]; discriminate); eauto. }
  destruct D as [[x ->]|[->|[D1 D2]]].
  - apply IH; [apply balanced_receive; exact B|exact U2|exact Hh].
  - destruct (balanced_execute 0 l t ltac:(lia) B (fun _ => U1 eq_refl)) as [B1 P]. apply IH; [exact B1|exact U2|]. lia.
  - destruct (balanced_other 0 l t o B D1 D2) as [B1 P]. apply IH; [exact B1|exact U2|]. lia.
Qed.

Section Health.
  Context {I : Type} (E : Env I).
  Lemma quality_run : forall i os s es, run E os (st0 i) = Ok (tt, s, es) -> 0 <= quality s <= 100 \/ quality s = 255.
  Proof.
    intros i os s es H. apply tally_run in H. assert (healthy (tally_of s)) as K; [|exact K]. rewrite H.
    apply healthy_counted; [unfold balanced; cbn; lia|left; cbn; lia].
  Qed.
  Lemma quality_calm : forall i os s es, run E os (st0 i) = Ok (tt, s, es) -> undisturbed os listener0 -> 0 <= quality s <= 100.
  Proof.
    intros i os s es H U. apply tally_run in H. assert (0 <= percent (tally_of s) <= 100) as K; [|exact K]. rewrite H.
    apply calm_counted; [unfold balanced; cbn; lia|exact U|cbn; lia].
  Qed.
End Health.
