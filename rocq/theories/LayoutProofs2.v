(** The decoder model simulates the interpreter: packets that access CVs *)
From Verif Require Import Prelude Address Instruction Datagram ZBits SpecCodec RxState Rx CodecProofs CodecProofs2 RxLogic SpecRx RxBitProofs
  SpecExec ExecProofs SpecConf ConfProofs ConfProofs2 SpecCv CvProofs CvProofs2 CvProofs5 CvProofs7 SpecLayout LayoutProofs.

Lemma next_all : forall x r v, perform_all (x :: r) v = next (perform x) (perform_all r) v.
Proof.
  intros x r v. unfold next. cbn [perform_all]. destruct (perform x v) as [v1 a]. cbn [fst snd].
  destruct (perform_all r v1). reflexivity.
Qed.
Lemma one_all : forall x v, perform_all [x] v = perform x v.
Proof. intros x v. cbn [perform_all]. destruct (perform x v) as [v1 a]. rewrite app_nil_r. reflexivity. Qed.

Section Cv.
  Context {I : Type} (E : Env I) (m : I -> Z -> Z) (able : access -> Prop) (Hk : keeps_cvs able E m).
  Implicit Types s : st I.
  Let Hm : cv_memory E m := proj1 Hk.
  Notation Sim := (Sim m).
  Notation simulates := (simulates m able).

  Lemma sim_same : forall v s, Sim v s -> Sim v s. Proof. trivial. Qed.

  Lemma sim_count : forall v s p q, r_deque (rxs s) = p :: q -> Sim v s ->
    exists s2, countOwnEqualCvPackets s = Ok (tt, s2, []) /\ Sim (count p v) s2.
  Proof.
    intros v s p q Hd (A & B & C & D).
    destruct (count_spec s p q Hd) as (s2 & k & Hc & Hn & (Hl & Ht) & Hconf & Haddr & Hby & Hdq & Happ & _).
    exists s2. split; [exact Hc|].
    assert (keeps (fun r => (logon_store (r_logon r), index_reg (r_cv r), service_mode (r_cv r))) (@countOwnEqualCvPackets I)) as K by keeps_tac.
    pose proof (K _ _ _ _ Hc) as Kl. cbn beta in Kl.
    split; [intros a; rewrite Happ; apply A|].
    split; [apply (active_cfg s); [unfold cfg; congruence|exact B]|].
    rewrite Haddr. split; [|exact D]. unfold regs in *. rewrite Haddr.
    unfold last_cv_packet, cv_packet_count in *.
    assert (own_equal_cv_packets_count (r_cv (rxs s2)) = v_times (count p v)) as ->.
    { rewrite Ht. unfold count. cbn [v_times]. unfold nth_in_row, last_cv_packet, cv_packet_count in Hn.
      assert (last_own_cv_packet (r_cv (rxs s)) = v_last v) as El by congruence.
      assert (own_equal_cv_packets_count (r_cv (rxs s)) = v_times v) as Et by congruence.
      rewrite El, Et in Hn. destruct (list_eq_dec Z.eq_dec (v_last v) p) as [e|e]; destruct Hn as [[X ->]|[X ->]]; congruence. }
    rewrite Hl. unfold count. cbn [v_service v_page v_last]. congruence.
  Qed.

  Lemma bind_out : forall A B (f : M (I := I) A) (k : A -> M B) s a s1 b s2 es, f s = Ok (a, s1, []) ->
    bind f k s = Ok (b, s2, es) -> k a s1 = Ok (b, s2, es).
  Proof.
    intros A B f k s a s1 b s2 es H K. unfold bind in K. rewrite H in K.
    destruct (k a s1) as [[[b3 s3] e3]|]; [|discriminate]. cbn [List.app] in K. congruence.
  Qed.

  Lemma sim_times : forall v s, Sim v s -> own_equal_cv_packets_count (r_cv (rxs s)) = v_times v.
  Proof. intros v s (_ & _ & H & _). unfold regs in H. congruence. Qed.

  Lemma done_idle : forall v s u s' es, Sim v s -> ret tt s = Ok (u, s', es) -> Sim v s' /\ seen_in es = [].
  Proof. intros v s u s' es HS H. unfold ret in H. assert (s' = s) as -> by congruence. assert (es = []) as -> by congruence. auto. Qed.

  Lemma land7 : forall b, 0 <= Z.land b 7 < 8.
  Proof. intros b. rewrite land_7. apply Z.mod_pos_bound. lia. Qed.

  Lemma u8_byte : forall x, byte (u8 x).
  Proof. intros x. unfold byte, u8. apply Z.mod_pos_bound. lia. Qed.
  Lemma sim_ret_bind : forall A B (a : A) (k : A -> M (I := I) B) g, simulates (k a) g -> simulates (bind (ret a) k) g.
  Proof. intros A B a k g H s v u s' es HS K. rewrite bind_ret in K. exact (H _ _ _ _ _ HS K). Qed.

  (** Long form *)
  Lemma sim_cvLong : forall n b0 t p q s v u s' es, r_deque (rxs s) = p :: q -> Forall byte (b0 :: t) ->
    negb (n =? 0) && (n =? aval (consist_address (v_cvs v))) = false ->
    Sim v s -> cvLong E n (b0 :: t) s = Ok (u, s', es) ->
    let v1 := count p v in
    let g := perform_all (if v_service v && negb (v_times v1 =? 2)%nat then []
                          else flat_map (due (v_times v1)) (request b0 (nth 0 t 0) (nth 1 t 0))) in
    Forall (allowed able) (snd (g v1)) -> Sim (fst (g v1)) s' /\ seen_in es = snd (g v1).
  Proof.
    intros n b0 t p q s v u s' es Hd Hb Hc HS H v1 g Hr. unfold cvLong in H. rewrite bind_get in H.
    rewrite (sim_consist m v s HS), Hc in H.
    destruct (sim_count v s p q Hd HS) as (s2 & Hcount & HS2).
    apply (bind_out _ _ _ _ _ _ _ _ _ _ Hcount) in H. cbn beta in H. rewrite bind_get in H. cbv zeta in H.
    fold v1 in HS2. rewrite (sim_times _ _ HS2), (sim_mode m _ _ HS2) in H.
    change (v_service v1) with (v_service v) in H. subst g.
    destruct (v_service v && negb (v_times v1 =? 2)%nat); [exact (done_idle _ _ _ _ _ HS2 H)|].
    inversion Hb as [|? ? H0 Hb1]; subst.
    cbn [at_ nth_error] in H. rewrite bind_ret in H.
    destruct t as [|b1 t]; [discriminate H|]. inversion Hb1 as [|? ? H1 Hb2]; subst. cbn [at_ nth_error] in H. rewrite bind_ret in H.
    cbn [nth] in Hr |- *.
    destruct t as [|b2 t].
    - assert (byte 0) as Hz by (unfold byte; lia). cbn [nth] in Hr |- *. rewrite (request_spec b0 b1 0 H0 H1 Hz) in Hr |- *. cbv zeta in Hr, H |- *.
      cbn [nth] in Hr |- *. clear Hr.
      destruct (Z.land (Z.shiftr b0 2) 3 =? 0); [exact (done_idle _ _ _ _ _ HS2 H)|].
      destruct (Z.land (Z.shiftr b0 2) 3 =? 1); [discriminate H|].
      destruct (Z.land (Z.shiftr b0 2) 3 =? 3); [|discriminate H].
      cbn [flat_map]. destruct (v_times v1) as [|[|[|k]]]; cbn [Nat.ltb Nat.leb Nat.eqb due List.app] in *;
        try discriminate H; exact (done_idle _ _ _ _ _ HS2 H).
    - inversion Hb2 as [|? ? H2 _]; subst. cbn [at_ nth_error nth] in H, Hr |- *.
      rewrite (request_spec b0 b1 b2 H0 H1 H2) in Hr |- *. cbv zeta in Hr, H |- *.
      set (a := Z.lor (Z.shiftl (Z.land b0 3) 8) b1) in *.
      destruct (Z.land (Z.shiftr b0 2) 3 =? 0); [exact (done_idle _ _ _ _ _ HS2 H)|].
      destruct (Z.land (Z.shiftr b0 2) 3 =? 1).
      { rewrite bind_ret in H.
        assert (flat_map (due (v_times v1)) [Check a b2] = [Check a b2]) as Ed by (destruct (v_times v1) as [|[|[|k]]]; reflexivity).
        rewrite Ed, one_all in Hr |- *. exact (sim_cvVerify E m able Hk a b2 _ _ _ _ _ HS2 H Hr). }
      destruct (Z.land (Z.shiftr b0 2) 3 =? 3).
      { destruct (v_times v1) as [|[|[|k]]]; cbn [Nat.ltb Nat.leb Nat.eqb flat_map due List.app] in *; rewrite ?bind_ret in H;
          try exact (done_idle _ _ _ _ _ HS2 H); rewrite one_all in Hr |- *.
        - exact (sim_cvWrite E m able Hk a b2 H2 _ _ _ _ _ HS2 H Hr).
        - exact (sim_cvVerify E m able Hk a b2 _ _ _ _ _ HS2 H Hr). }
      rewrite bind_ret in H. destruct (Z.testbit b2 4); cbn [negb] in H.
      + destruct (v_times v1) as [|[|[|k]]]; cbn [Nat.eqb flat_map due List.app] in *;
          try exact (done_idle _ _ _ _ _ HS2 H). rewrite one_all in Hr |- *.
        exact (sim_cvWriteBit E m able Hk a _ _ (land7 b2) _ _ _ _ _ HS2 H Hr).
      + assert (flat_map (due (v_times v1)) [CheckBit a (Z.testbit b2 3) (Z.land b2 7)] = [CheckBit a (Z.testbit b2 3) (Z.land b2 7)])
          as Ed by (destruct (v_times v1) as [|[|[|k]]]; reflexivity).
        rewrite Ed, one_all in Hr |- *. exact (sim_cvVerifyBit E m able Hk a _ _ (land7 b2) _ _ _ _ _ HS2 H Hr).
  Qed.

  (** Short form *)
  Lemma sim_cvShort : forall n b0 t p q s v u s' es, r_deque (rxs s) = p :: q -> Forall byte (b0 :: t) ->
    negb (n =? 0) && (n =? aval (consist_address (v_cvs v))) = false ->
    Sim v s -> cvShort E n (b0 :: t) s = Ok (u, s', es) ->
    let v1 := count p v in
    let g := perform_all (short_request (v_times v1) b0 (nth 0 t 0) (nth 1 t 0)) in
    Forall (allowed able) (snd (g v1)) -> Sim (fst (g v1)) s' /\ seen_in es = snd (g v1).
  Proof.
    intros n b0 t p q s v u s' es Hd Hb Hc HS H v1 g Hr. unfold cvShort in H. rewrite bind_get in H.
    rewrite (sim_consist m v s HS), Hc in H.
    destruct (sim_count v s p q Hd HS) as (s2 & Hcount & HS2).
    apply (bind_out _ _ _ _ _ _ _ _ _ _ Hcount) in H. cbn beta in H. rewrite bind_get in H. cbv zeta in H.
    fold v1 in HS2. rewrite (sim_times _ _ HS2) in H. subst g.
    inversion Hb as [|? ? H0 Hb1]; subst.
    cbn [at_ nth_error] in H. rewrite bind_ret in H.
    assert (byte (nth 0 t 0)) as H1 by (destruct t as [|x t]; [unfold byte; cbn; lia|inversion Hb1; assumption]).
    rewrite (short_spec _ b0 _ (nth 1 t 0) H0 H1) in Hr |- *. cbv zeta in Hr |- *.
    destruct (Z.land b0 15 =? 2).
    { destruct t as [|b1 t]; [discriminate H|]. cbn [at_ nth nth_error] in *. rewrite bind_ret in H.
      rewrite one_all in Hr |- *. exact (sim_cvWrite E m able Hk _ _ H1 _ _ _ _ _ HS2 H Hr). }
    destruct (Z.land b0 15 =? 3).
    { destruct t as [|b1 t]; [discriminate H|]. cbn [at_ nth nth_error] in *. rewrite bind_ret in H.
      rewrite one_all in Hr |- *. exact (sim_cvWrite E m able Hk _ _ H1 _ _ _ _ _ HS2 H Hr). }
    destruct (Z.land b0 15 =? 4).
    { destruct (negb (v_times v1 =? 2)%nat); [exact (done_idle _ _ _ _ _ HS2 H)|].
      destruct t as [|b1 t]; [discriminate H|]. cbn [at_ nth nth_error] in *. rewrite bind_ret in H.
      destruct t as [|b2 t].
      { apply bind_inv in H. destruct H as (? & ? & ? & ? & _ & H & _). discriminate H. }
      inversion Hb1 as [|? ? _ Hb2]; subst. inversion Hb2 as [|? ? H2 _]; subst. cbn [at_ nth nth_error] in *.
      assert (K : simulates (bind (cvWrite E 16 (u8 (Z.lor 0xC0 b1))) (fun _ => bind (ret b2) (fun b => bind (cvWrite E 17 b) (fun _ => cvWriteBit E 28 true 5))))
                    (perform_all [Store 16 (u8 (Z.lor 192 b1)); Store 17 b2; StoreBit 28 true 5])).
      { eapply sim_ext; [intros w; symmetry; apply next_all|]. apply simulates_bind; [apply (sim_cvWrite E m able Hk), u8_byte|intros _].
        apply sim_ret_bind. eapply sim_ext; [intros w; symmetry; apply next_all|].
        apply simulates_bind; [apply (sim_cvWrite E m able Hk); exact H2|intros _].
        eapply sim_ext; [intros w; symmetry; apply one_all|]. apply (sim_cvWriteBit E m able Hk). lia. }
      exact (K _ _ _ _ _ HS2 H Hr). }
    destruct (Z.land b0 15 =? 5); [|exact (done_idle _ _ _ _ _ HS2 H)].
    destruct (negb (v_times v1 =? 2)%nat); [exact (done_idle _ _ _ _ _ HS2 H)|].
    destruct t as [|b1 t]; [discriminate H|]. cbn [at_ nth nth_error] in *. rewrite bind_ret in H.
    destruct t as [|b2 t].
    { apply bind_inv in H. destruct H as (? & ? & ? & ? & _ & H & _). discriminate H. }
    inversion Hb1 as [|? ? _ Hb2]; subst. inversion Hb2 as [|? ? H2 _]; subst. cbn [at_ nth nth_error] in *.
    assert (K : simulates (bind (cvWrite E 30 b1) (fun _ => bind (ret b2) (fun b => cvWrite E 31 b)))
                  (perform_all [Store 30 b1; Store 31 b2])).
    { eapply sim_ext; [intros w; symmetry; apply next_all|]. apply simulates_bind; [apply (sim_cvWrite E m able Hk); exact H1|intros _].
      apply sim_ret_bind. eapply sim_ext; [intros w; symmetry; apply one_all|]. apply (sim_cvWrite E m able Hk). exact H2. }
    exact (K _ _ _ _ _ HS2 H Hr).
  Qed.

  (** Register and paged mode *)
  Lemma sim_register : forall b0 b1 t s v u s' es, byte b0 -> byte b1 -> byte (v_page v) ->
    Sim v s -> v_service v = true -> registerMode E (b0 :: b1 :: t) s = Ok (u, s', es) ->
    let g := fun v =>
      if b0 mod 8 =? 5 then
        if bit_of b0 3 then (with_page b1 v, [])
        else (v, if v_page v =? b1 then [Told EServiceAck] else [])
      else perform ((if bit_of b0 3 then Store else Check) (register_cv (v_page v) (b0 mod 8) mod 2 ^ 32) b1) v in
    Forall (allowed able) (snd (g v)) -> Sim (fst (g v)) s' /\ seen_in es = snd (g v).
  Proof.
    intros b0 b1 t s v u s' es H0 H1 Hp HS Hsv H g Hr. unfold byte in H0, Hp. unfold registerMode in H. cbn [at_ nth_error] in H.
    rewrite bind_ret, bind_get in H. cbv zeta in H. rewrite land_7, testbit_bit in H by lia.
    assert (index_reg (r_cv (rxs s)) = v_page v) as Hpg by (destruct HS as (_ & _ & HS & _); unfold regs in HS; congruence).
    rewrite Hpg in H. subst g. cbn beta in Hr |- *.
    assert (K : forall a, a = register_cv (v_page v) (b0 mod 8) mod 2 ^ 32 -> b0 mod 8 <> 5 ->
      (if bit_of b0 3 then cvWrite E a b1 else cvVerify E a b1) s = Ok (u, s', es) ->
      Sim (fst (perform ((if bit_of b0 3 then Store else Check) (register_cv (v_page v) (b0 mod 8) mod 2 ^ 32) b1) v)) s' /\
      seen_in es = snd (perform ((if bit_of b0 3 then Store else Check) (register_cv (v_page v) (b0 mod 8) mod 2 ^ 32) b1) v)).
    { intros a Ha Hn Hx. rewrite (proj2 (Z.eqb_neq _ _) Hn) in Hr. rewrite <- Ha in Hr |- *.
      destruct (bit_of b0 3); [exact (sim_cvWrite E m able Hk a b1 H1 _ _ _ _ _ HS Hx Hr)|exact (sim_cvVerify E m able Hk a b1 _ _ _ _ _ HS Hx Hr)]. }
    pose proof (Z.mod_pos_bound b0 8 ltac:(lia)) as Hb8.
    destruct (Z.eqb_spec (b0 mod 8) 5) as [E5|N5].
    - clear K. rewrite E5 in H. cbn [Z.leb Z.compare Pos.compare Pos.compare_cont Z.eqb Pos.eqb] in H. rewrite bind_ret in H.
      destruct (bit_of b0 3).
      + unfold modify in H. assert (s' = Mk_st (set_index_reg b1 (rxs s)) (app s) (pending s)) as -> by congruence.
        assert (es = []) as -> by congruence. split; [|reflexivity]. destruct HS as (A & B & C & D).
        split; [exact A|]. split; [exact B|]. split; [|exact D].
        unfold regs in *. cbn [fst with_page v_service v_page v_last v_times rxs]. destruct (rxs s) as [? ? ? ? ? ? ? [] ?].
        cbn in *. congruence.
      + cbn [fst snd]. destruct (v_page v =? b1).
        * unfold call in H. assert (s' = Mk_st (rxs s) (e_hook E (app s) EServiceAck) (pending s)) as -> by congruence.
          assert (es = [EServiceAck]) as -> by congruence. split; [|reflexivity].
          apply (Sim_kept m v s); try reflexivity; [|exact HS]. apply (mem_hook E m Hm).
        * exact (done_idle _ _ _ _ _ HS H).
    - unfold register_cv in K.
      destruct (Z.leb_spec (b0 mod 8) 3).
      { rewrite bind_ret in H. unfold register_cv. destruct (Z.ltb_spec (b0 mod 8) 4); [|lia].
        apply (K (u32 (v_page v * 4 - (4 - b0 mod 8)))); [|exact N5|exact H]. unfold u32. f_equal. lia. }
      unfold register_cv. destruct (Z.ltb_spec (b0 mod 8) 4); [lia|].
      destruct (Z.eqb_spec (b0 mod 8) 4) as [E4|N4].
      { rewrite bind_ret in H. apply (K 28); [reflexivity|exact N5|exact H]. }
      rewrite bind_ret in H. apply (K (b0 mod 8)); [symmetry; apply Z.mod_small; lia|exact N5|exact H].
  Qed.
End Cv.
