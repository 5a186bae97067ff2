(** Packets disturbed on the track *)
From Verif Require Import Prelude Address ZBits SpecCodec RxState Rx CodecProofs RxLogic SpecRx
  RxBitProofs RxBitProofs2 RxBitProofs3 RxBitProofs4 RxBitProofs5 SpecFlip.

Lemma doubled_bits : forall bits, flat_map (fun b : bool => [b; b]) bits = doubled bits.
Proof. reflexivity. Qed.

Section Flip.
  Context {I : Type} (E : Env I).
  Implicit Types s : st I.

  Definition inside (bs : list Z) s : st I :=
    with_rx (fun r => set_preamble_count (preamble_count (r_cnt r) + 1) (set_r_fsm (Mk_fsm Endbit 0 0 (xor_all bs) false bs false) r)) s.

  (** Preamble and bytes, up to the end bit *)
  Lemma run_bytes : forall bs ts n m hb pk pe s, Forall byte bs -> (1 <= length bs <= 18)%nat ->
    r_fsm (rxs s) = Mk_fsm Preamble m 0 0 hb pk pe -> (10 <= n)%nat -> (length (r_deque (rxs s)) < 31)%nat ->
    plays_bits ts (repeat true n ++ flat_map (fun b => false :: msb_first b) bs) ->
    run E (map OReceive ts) s = Ok (tt, inside bs s, []).
  Proof.
    intros bs ts n m hb pk pe s Hby Hlen Hf Hn Hd Hp. unfold plays_bits in Hp.
    assert (Hfull : full s = false) by (unfold full; apply Nat.eqb_neq; lia).
    destruct bs as [|b bs]; [cbn [length] in Hlen; lia|]. inversion Hby as [|? ? Hb1 Hb2]; subst.
    rewrite doubled_bits, doubled_app, doubled_ones in Hp.
    change (doubled (flat_map (fun b => false :: msb_first b) (b :: bs)))
      with ([false; false] ++ doubled (msb_first b) ++ doubled (flat_map (fun b => false :: msb_first b) bs)) in Hp.
    apply map_Some_app_inv in Hp. destruct Hp as (t1 & tr & -> & Hp1 & Hp).
    apply map_Some_app_inv in Hp. destruct Hp as (t2 & t3 & -> & Hp2 & Hp).
    apply map_Some_app_inv in Hp. destruct Hp as (t4 & t5 & -> & Hp4 & Hp5).
    rewrite !map_app.
    rewrite (run_ops_app E (map OReceive t1) _ s (with_fsm (Mk_fsm Preamble (m + 2 * n) 0 0 hb pk false) s) []).
    2: { apply (run_silent E (repeat true (2 * n))); [exact Hp1|]. rewrite Hfull, Hf.
         apply (silent_ones (2 * n) m); auto; lia. }
    destruct t2 as [|ta [|tb [|]]]; try discriminate. cbn in Hp2.
    assert (Ha : half_bit ta = Some false) by congruence.
    assert (Hb : half_bit tb = Some false) by congruence.
    set (s1 := with_rx (fun r => set_preamble_count (preamble_count (r_cnt r) + 1)
                    (set_r_fsm (Mk_fsm Data 0 0 0 false [] false) r)) s).
    rewrite (run_ops_app E (map OReceive [ta; tb]) _ _ s1 []).
    2: { rewrite (run_start E ta tb (m + 2 * n) hb pk false false); auto; lia. }
    rewrite (run_ops_app E (map OReceive t4) _ s1 (with_fsm (Mk_fsm Endbit 0 0 (Z.lxor 0 b) false ([] ++ [b]) false) s1) []).
    2: { apply (run_silent E (doubled (msb_first b))); [exact Hp4|].
         replace (full s1) with false by (symmetry; exact Hfull). change (r_fsm (rxs s1)) with (Mk_fsm Data 0 0 0 false [] false).
         apply silent_byte; [exact Hb1|unfold byte; lia|cbn [length]; lia]. }
    rewrite (run_silent E (doubled (flat_map (fun b => false :: msb_first b) bs)) t5
           (Mk_fsm Endbit 0 0 (Z.lxor (Z.lxor 0 b) (xor_all bs)) false (([] ++ [b]) ++ bs) false)).
    - rewrite Z.lxor_0_l. destruct s as [[] i p]. reflexivity.
    - exact Hp5.
    - replace (full _) with false by (symmetry; exact Hfull). apply silent_bytes; [exact Hb2|rewrite Z.lxor_0_l; exact Hb1|].
      cbn [List.app length] in *. lia.
  Qed.

  Lemma one_bit : forall ts b, map half_bit ts = map Some (doubled [b]) -> exists ta tb, ts = [ta; tb] /\ half_bit ta = Some b /\ half_bit tb = Some b.
  Proof.
    intros ts b H. destruct ts as [|ta [|tb [|]]]; try discriminate. cbn in H. injection H as Ha Hb. exists ta, tb. auto.
  Qed.

  (** An end bit behind bytes that are no packet *)
  Lemma run_reject : forall bs ts s, (length (r_deque (rxs s)) < 31)%nat -> valid_packet bs = false ->
    map half_bit ts = map Some (doubled [true]) ->
    run E (map OReceive ts) (inside bs s) =
    Ok (tt, with_rx (fun r => set_received addr0 (set_preamble_count (preamble_count (r_cnt r) + 1)
               (set_r_fsm (Mk_fsm Preamble 0 0 0 false [] false) r))) s, []).
  Proof.
    intros bs ts s Hd Hv H. destruct (one_bit ts true H) as (ta & tb & -> & Ha & Hb). cbn [map].
    assert (Hfull : full s = false) by (unfold full; apply Nat.eqb_neq; lia).
    rewrite run_receive_cons with (u := tt) (s1 := with_fsm (Mk_fsm Endbit 0 0 (xor_all bs) true bs false) (inside bs s)) (e1 := []).
    2: { rewrite receive_machine, (machine_some _ _ _ _ Ha). destruct s as [[] i p]. reflexivity. }
    rewrite run_receive_cons with (u := tt) (s1 := with_rx (fun r => set_received addr0 (set_preamble_count (preamble_count (r_cnt r) + 1)
               (set_r_fsm (Mk_fsm Preamble 0 0 0 false [] false) r))) s) (e1 := []); [reflexivity|].
    rewrite receive_machine, (machine_some _ _ _ _ Hb).
    replace (full _) with false by (symmetry; exact Hfull).
    unfold machine_hb, machine_bit. cbn -[Nat.leb length valid_packet xor_all].
    unfold valid_packet in Hv. rewrite Hv. destruct s as [[] i p]. reflexivity.
  Qed.

  (** An end bit behind a packet *)
  Lemma run_accept : forall bs ts s, (length (r_deque (rxs s)) < 31)%nat -> valid_packet bs = true -> Forall byte bs -> is_logon bs = false ->
    map half_bit ts = map Some (doubled [true]) ->
    run E (map OReceive ts) (inside bs s) =
    Ok (tt, with_rx (fun r => Mk_rx (Mk_fsm Preamble 0 0 0 false bs true) (r_deque r ++ [bs])
               (Mk_cnts (packet_count (r_cnt r) + 1) (preamble_count (r_cnt r) + 1) (qos (r_cnt r)))
               (upd_received (address_of bs) (r_addrs r)) (r_conf r) (r_logon r) (r_bidi r)
               (r_cv r) (r_time r)) s, []).
  Proof.
    intros bs ts s Hd Hv Hby Hlg H. destruct (one_bit ts true H) as (ta & tb & -> & Ha & Hb). cbn [map].
    assert (Hfull : full s = false) by (unfold full; apply Nat.eqb_neq; lia).
    assert (Hl : (3 <= length bs)%nat) by (unfold valid_packet in Hv; apply andb_true_iff in Hv; apply Nat.leb_le; apply Hv).
    rewrite run_receive_cons with (u := tt) (s1 := with_fsm (Mk_fsm Endbit 0 0 (xor_all bs) true bs false) (inside bs s)) (e1 := []).
    2: { rewrite receive_machine, (machine_some _ _ _ _ Ha). destruct s as [[] i p]. reflexivity. }
    rewrite run_receive_cons with (u := tt) (s1 := with_rx (fun r => Mk_rx (Mk_fsm Preamble 0 0 0 false bs true) (r_deque r ++ [bs])
               (Mk_cnts (packet_count (r_cnt r) + 1) (preamble_count (r_cnt r) + 1) (qos (r_cnt r)))
               (upd_received (address_of bs) (r_addrs r)) (r_conf r) (r_logon r) (r_bidi r)
               (r_cv r) (r_time r)) s) (e1 := []); [reflexivity|].
    rewrite receive_machine, (machine_some _ _ _ _ Hb).
    replace (full _) with false by (symmetry; exact Hfull).
    assert (Hmb : machine_hb false (r_fsm (rxs (with_fsm (Mk_fsm Endbit 0 0 (xor_all bs) true bs false) (inside bs s)))) true
            = (Mk_fsm Endbit 0 0 (xor_all bs) false bs false, AAccept)).
    { unfold machine_hb, machine_bit. cbn -[Nat.leb length xor_all]. unfold valid_packet in Hv. rewrite Hv. reflexivity. }
    rewrite Hmb. rewrite accept_ordinary; [destruct s as [[] i p]; reflexivity| | | |];
      unfold with_fsm; cbn [rxs r_fsm set_r_fsm f_packet r_deque]; auto.
  Qed.
End Flip.
