(** Bit receiver: queue, overflow, gate, connection to the transmitter *)
From Verif Require Import Prelude Address ZBits SpecCodec SpecTx TxProofs Tx RxState Rx CodecProofs RxLogic SpecRx
  RxBitProofs RxBitProofs2 RxBitProofs3.

(** ** Queue *)

Lemma listen_queue : forall o l,
  match completed o l with Some bs => if is_logon bs then [] else [bs] | None => [] end
  = [] /\ l_queue (listen o l) = skipn (length match o with OExecute => if l_fresh l then [] else firstn 1 (l_queue l) | _ => [] end) (l_queue l)
  \/ exists bs, completed o l = Some bs /\ is_logon bs = false /\ l_queue (listen o l) = l_queue l ++ [bs] /\ is_receive o = true.
Proof.
  intros [| | |t| | | | |] l; cbn [completed listen is_receive]; try (left; split; reflexivity).
  - left. destruct (l_on l); split; reflexivity.
  - destruct (half_bit t) as [b|]; [|left; split; reflexivity].
    unfold hear. destruct (looked_at _ && _); [left; split; reflexivity|].
    destruct (reading _) as [| |bs]; try (left; split; reflexivity).
    destruct (valid_packet bs); [|left; split; reflexivity].
    destruct (is_logon bs) eqn:El; [left; split; reflexivity|].
    right. exists bs. auto.
  - left. split; [reflexivity|]. destruct (l_fresh l); [reflexivity|].
    destruct (l_queue l); reflexivity.
Qed.

Lemma log_queue : forall os l,
  l_queue l ++ heard os l = taken os l ++ l_queue (listen_all os l).
Proof.
  induction os as [|o os IH]; intros l.
  - cbn. apply app_nil_r.
  - change (listen_all (o :: os) l) with (listen_all os (listen o l)). cbn [heard taken].
    destruct (listen_queue o l) as [[H1 H2]|(bs & H1 & H2 & H3 & H4)].
    + rewrite H1. cbn [List.app]. rewrite <- app_assoc, <- IH, H2.
      destruct o; try reflexivity. destruct (l_fresh l); [reflexivity|].
      destruct (l_queue l); reflexivity.
    + rewrite H1, H2. destruct o; try discriminate. cbn [List.app].
      rewrite <- IH, H3, <- app_assoc. reflexivity.
Qed.

Lemma overflow_looked : forall h f full b t f',
  Inv h f -> half_bit t = Some b -> machine full f t = (f', AOverflow) ->
  looked_at (h ++ [b]) = true /\ full = false.
Proof.
  intros h f full b t f' HI Et Em. unfold machine in Em. rewrite Et in Em.
  destruct f as [ph bc by_ ck hb pk pe].
  unfold upd_f_packet_end, upd_f_is_halfbit, machine_bit, Inv in *.
  cbn [f_state f_bit_count f_byte f_checksum f_is_halfbit f_packet f_packet_end] in *.
  destruct ph.
  - destruct full, b, (bc <? 20)%nat; inversion Em.
  - destruct full; inversion Em.
  - destruct HI as (_ & _ & _ & n & x & body & bits & Hn & -> & _ & -> & _).
    destruct (Nat.odd (length body)) eqn:Eo; cbn [negb] in Em; [|discriminate].
    destruct full; [discriminate|]. split; [|reflexivity].
    rewrite <- app_assoc. cbn [List.app]. rewrite looked_at_body, <- Nat.negb_odd, odd_length_snoc, Eo. reflexivity.
  - destruct (negb hb), full, b, ((ck =? 0) && (3 <=? length pk)%nat); cbn in Em; inversion Em.
Qed.

Lemma lost_frame : forall h f b, Inv h f -> reading (h ++ [b]) = Lost -> frame_so_far (h ++ [b]) = [].
Proof.
  intros h f b HI Hr. unfold Inv in HI. destruct (f_state f).
  - destruct HI as (-> & _ & _). unfold frame_so_far. rewrite after_ones_repeat. destruct b; reflexivity.
  - destruct HI as (_ & _ & n & Hn & ->). rewrite <- app_assoc in Hr. cbn [List.app] in Hr.
    rewrite reading_body in Hr by exact Hn. destruct (snd _); discriminate.
  - destruct HI as (_ & _ & _ & n & x & body & bits & Hn & -> & _).
    rewrite <- app_assoc in Hr. cbn [List.app] in Hr.
    rewrite reading_body in Hr by exact Hn. destruct (snd _); discriminate.
  - destruct HI as (_ & _ & _ & _ & _ & n & x & body & q & bits & Hn & -> & _).
    rewrite <- app_assoc in Hr. cbn [List.app] in Hr.
    rewrite reading_body in Hr by exact Hn. destruct (snd _); discriminate.
Qed.

Lemma packet_frame : forall hs bs, reading hs = Packet bs -> frame_so_far hs = bs.
Proof.
  intros hs bs H. unfold reading, frame_so_far in *. destruct (after_ones hs) as [|a [|x body]]; try discriminate;
    destruct (ones hs <? 20)%nat; try discriminate.
  destruct (bytes_of (samples body)) as [p []]; [|discriminate]. inversion H. reflexivity.
Qed.

Section Bits4.
  Context {I : Type} (E : Env I).
  Implicit Types s : st I.

  Theorem fifo : forall i os s es, run E os (st0 i) = Ok (tt, s, es) ->
    heard os listener0 = taken os listener0 ++ r_deque (rxs s) /\ (length (r_deque (rxs s)) <= 31)%nat.
  Proof.
    intros i os s es H. pose proof (run_refines E os _ _ _ _ (Rl0 i) H) as (_ & Hq & _ & _ & Hl).
    rewrite Hq. split; [|exact Hl]. rewrite <- log_queue. reflexivity.
  Qed.

  (** While the queue is full nothing but the bit registers change *)
  Lemma receive_full : forall s t, length (r_deque (rxs s)) = 31%nat ->
    exists f, receive E t s = Ok (tt, with_fsm f s, []) /\ f_packet_end f = false.
  Proof.
    intros s t H. rewrite receive_machine. unfold full. rewrite H. cbn [Nat.eqb].
    unfold machine. destruct (half_bit t); [|eexists; split; reflexivity].
    unfold machine_bit. destruct (r_fsm (rxs s)) as [[] ? ? ? [] ? ?]; cbn; eexists; split; reflexivity.
  Qed.

  Theorem full_drops : forall ts s, length (r_deque (rxs s)) = 31%nat ->
    exists f, run E (map OReceive ts) s = Ok (tt, with_fsm f s, []).
  Proof.
    induction ts as [|t ts IH]; intros s H.
    - exists (r_fsm (rxs s)). cbn [map run]. destruct s as [[] i p]. reflexivity.
    - destruct (receive_full s t H) as (f & Hf & _). cbn [map].
      rewrite (run_receive_cons E t _ s tt _ [] Hf).
      destruct (IH (with_fsm f s) H) as (f2 & ->). exists f2. destruct s as [[] i p]. reflexivity.
  Qed.

  (** ** Overflow *)

  (** Twenty ones, a start bit and nineteen zero bytes, each with a following zero *)
  Definition oversized : list Z := repeat 58 20 ++ repeat 100 (2 + 19 * 18).

  Theorem oversized_overflows : forall i, run E (map OReceive oversized) (st0 i) = UB PacketFull.
  Proof. intros i. vm_compute. reflexivity. Qed.

  Theorem receive_bounded : forall i os s es,
    run E os (st0 i) = Ok (tt, s, es) ->
    (length (f_packet (r_fsm (rxs s))) <= 18)%nat.
  Proof.
    intros i os s es H.
    assert (Hgen : forall os s s' es, run E os s = Ok (tt, s', es) ->
              (length (f_packet (r_fsm (rxs s))) <= 18)%nat -> (length (f_packet (r_fsm (rxs s'))) <= 18)%nat).
    { clear. induction os as [|o os IH]; intros s s' es H Hl; [inversion H; subst; exact Hl|].
      cbn [run] in H. apply bind_inv in H. destruct H as (b & s1 & e1 & e2 & H1 & H2 & ->).
      apply (IH _ _ _ H2). clear IH H2 os s' e2.
      destruct o as [| | |t| |ds| | |i v]; cbn [step] in H1.
      1: { apply bind_inv in H1. destruct H1 as (u & s2 & e3 & e4 & Ha & Hb & ->). inversion Hb; subst.
           apply core_init in Ha. injection Ha as Ha _ _. rewrite Ha. exact Hl. }
      1: { apply bind_inv in H1. destruct H1 as (u & s2 & e3 & e4 & Ha & Hb & ->). inversion Hb; subst.
           unfold enable in Ha. apply bind_inv in Ha. destruct Ha as (r & s3 & e5 & e6 & Hg & Ha & ->).
           inversion Hg; subst. destruct (enabled_flag _); inversion Ha; subst; exact Hl. }
      1: { apply bind_inv in H1. destruct H1 as (u & s2 & e3 & e4 & Ha & Hb & ->). inversion Hb; subst.
           unfold disable in Ha. apply bind_inv in Ha. destruct Ha as (r & s3 & e5 & e6 & Hg & Ha & ->).
           inversion Hg; subst. destruct (negb _); [inversion Ha; subst; exact Hl|].
           apply bind_inv in Ha. destruct Ha as (u1 & s4 & e7 & e8 & Ha & Hc & ->).
           inversion Ha; subst. inversion Hc; subst. exact Hl. }
      1: { apply bind_inv in H1. destruct H1 as ([] & s2 & e3 & e4 & Ha & Hb & ->). inversion Hb; subst.
           clear Hb. rewrite receive_machine in Ha.
           assert (Hm : (length (f_packet (fst (machine (full s) (r_fsm (rxs s)) t))) <= 18)%nat).
           { clear Ha. unfold machine, machine_bit. destruct (r_fsm (rxs s)) as [ph bc by_ ck hb pk pe].
             cbn [f_packet] in Hl. destruct (half_bit t) as [b0|]; [|exact Hl].
             destruct ph, hb, (full s), b0; cbn -[Nat.ltb Nat.leb]; try exact Hl; try lia;
             repeat match goal with |- context [if ?c then _ else _] => destruct c eqn:? end;
               cbn [fst f_packet length]; try exact Hl; try lia; cbn -[Nat.leb];
               rewrite ?app_length; cbn [length]; rewrite ?Nat.ltb_lt in *; try lia. }
           destruct (machine (full s) (r_fsm (rxs s)) t) as [f []]; cbn [fst] in Hm;
             try (inversion Ha; subst; exact Hm); try discriminate.
           unfold accept in Ha. apply bind_inv in Ha. destruct Ha as ([] & s3 & e5 & e6 & H & Hr & ->).
           inversion Hr; subst. cbn [rxs set_r_fsm r_fsm].
           assert (Hk : f_packet (r_fsm (rxs s3)) = f_packet f); [|cbn; rewrite Hk; exact Hm].
           apply bind_inv in H. destruct H as ([] & s4 & e7 & e8 & Hx & H & ->). inversion Hx; subst; clear Hx.
           apply bind_inv in H. destruct H as ([] & s5 & e9 & e10 & Hx & H & ->). inversion Hx; subst; clear Hx.
           apply bind_inv in H. destruct H as (a & s6 & e11 & e12 & Hx & H & ->).
           assert (s6 = Mk_st (set_packet_count (packet_count (r_cnt (rxs (with_fsm f s))) + 1) (set_f_packet_end true (rxs (with_fsm f s)))) (app s) (pending s)).
           { unfold lift in Hx. destruct (decode_address _); inversion Hx; reflexivity. }
           subst s6. clear Hx.
           apply bind_inv in H. destruct H as ([] & s7 & e13 & e14 & Hx & H & ->). inversion Hx; subst; clear Hx.
           apply bind_inv in H. destruct H as (hd & s8 & e15 & e16 & Hx & H & ->).
           apply core_handler in Hx. injection Hx as Hx _ _.
           assert (Hf8 : f_packet (r_fsm (rxs s8)) = f_packet f) by (rewrite Hx; reflexivity).
           destruct hd; [inversion H; subst; exact Hf8|].
           apply bind_inv in H. destruct H as (r & s9 & e17 & e18 & Hg & H & ->). inversion Hg; subst; clear Hg.
           destruct (_ <? _)%nat; [|discriminate]. inversion H; subst. exact Hf8. }
      1: { apply execute_effect in H1. destruct H1 as [(_ & _ & -> & _)|(_ & _ & Hc)]; [exact Hl|].
           injection Hc as Hc _ _. rewrite Hc. exact Hl. }
      1: { apply bind_inv in H1. destruct H1 as (u & s2 & e3 & e4 & Ha & Hb & ->). inversion Hb; subst.
           apply core_datagram in Ha. injection Ha as Ha _ _. rewrite Ha. exact Hl. }
      1: { apply bind_inv in H1. destruct H1 as (u & s2 & e3 & e4 & Ha & Hb & ->). inversion Hb; subst.
           apply core_biDi1 in Ha. injection Ha as Ha _ _. rewrite Ha. exact Hl. }
      1: { apply bind_inv in H1. destruct H1 as (u & s2 & e3 & e4 & Ha & Hb & ->). inversion Hb; subst.
           apply core_biDi2 in Ha. injection Ha as Ha _ _. rewrite Ha. exact Hl. }
      destruct (nth_error (pending s) i) as [c|]; [|inversion H1; subst; exact Hl].
      apply bind_inv in H1. destruct H1 as (u & s2 & e3 & e4 & Ha & Hb & ->). inversion Hb; subst.
      apply core_run_cb in Ha. injection Ha as Ha _ _. rewrite Ha. exact Hl. }
    apply (Hgen os _ _ _ H). cbn. lia.
  Qed.

  (** Exact condition *)
  Theorem receive_total : forall i os s es t,
    run E os (st0 i) = Ok (tt, s, es) ->
    let l := listen_all os listener0 in
    (forall bs, completed (OReceive t) l = Some bs -> is_logon bs = false) ->
    match half_bit t with
    | Some b =>
        if looked_at (l_heard l ++ [b]) && negb (length (r_deque (rxs s)) =? 31)%nat &&
           (18 <? length (frame_so_far (l_heard l ++ [b])))%nat
        then receive E t s = UB PacketFull
        else exists s', receive E t s = Ok (tt, s', [])
    | None => exists s', receive E t s = Ok (tt, s', [])
    end.
  Proof.
    intros i os s es t Hrun l Hlg.
    pose proof (run_refines E os _ _ _ _ (Rl0 i) Hrun) as HR. fold l in HR.
    destruct HR as (HI & Hq & Hf & Ho & Hl).
    destruct (half_bit t) as [b|] eqn:Et.
    2: { eexists. apply receive_invalid. exact Et. }
    rewrite receive_machine.
    pose proof (machine_sim (l_heard l) (r_fsm (rxs s)) (full s) b t HI Et) as Hs. cbv zeta in Hs.
    cbn [completed] in Hlg. rewrite Et in Hlg. cbv zeta in Hlg. rewrite <- Hq in Hlg. fold (full s) in Hlg |- *.
    change (length (r_deque (rxs s)) =? 31)%nat with (full s).
    destruct (machine (full s) (r_fsm (rxs s)) t) as [f a] eqn:Em. cbn [fst snd] in Hs.
    assert (Hov : a = AOverflow -> looked_at (l_heard l ++ [b]) = true /\ full s = false).
    { intros ->. exact (overflow_looked _ _ _ _ _ _ HI Et Em). }
    destruct (reading (l_heard l ++ [b])) as [| |bs] eqn:Er.
    - (* listening *)
      destruct (looked_at (l_heard l ++ [b]) && full s) eqn:Elf.
      + destruct Hs as (-> & _). apply andb_prop in Elf. destruct Elf as [-> ->].
        cbn [andb negb]. eexists. reflexivity.
      + destruct Hs as [[-> Hs]|[Ha [_ [_ Hs]]]].
        * destruct (Hov eq_refl) as [-> ->]. rewrite Hs. reflexivity.
        * replace (18 <? length (frame_so_far (l_heard l ++ [b])))%nat with false
            by (symmetry; apply Nat.ltb_ge; exact Hs).
          rewrite andb_false_r. destruct Ha as [-> | ->]; eexists; reflexivity.
    - (* lost *)
      rewrite (lost_frame _ _ _ HI Er). cbn [length Nat.ltb Nat.leb]. rewrite andb_false_r.
      destruct (looked_at (l_heard l ++ [b]) && full s); destruct Hs as (-> & _); eexists; reflexivity.
    - (* packet *)
      destruct (looked_at (l_heard l ++ [b]) && full s) eqn:Elf.
      { destruct Hs as (-> & _). apply andb_prop in Elf. destruct Elf as [-> ->].
        cbn [andb negb]. eexists. reflexivity. }
      destruct Hs as (Hby & Hlen & Hs). rewrite (packet_frame _ _ Er).
      replace (18 <? length bs)%nat with false by (symmetry; apply Nat.ltb_ge; lia).
      rewrite andb_false_r.
      destruct (valid_packet bs) eqn:Ev; [|destruct Hs as (-> & _); eexists; reflexivity].
      destruct Hs as [-> Hpk]. specialize (Hlg bs eq_refl).
      destruct (accept_sounds _ _ _ _ _ _ HI Et Em) as (_ & Hby' & Hlen' & _).
      rewrite accept_ordinary; unfold with_fsm; cbn [rxs r_fsm set_r_fsm r_deque]; auto;
        [eexists; reflexivity|lia|rewrite Hpk; exact Hlg|].
      destruct (full s) eqn:Efl; [exfalso|].
      + clear - Em Et. unfold machine in Em. rewrite Et in Em. unfold machine_bit in Em.
        destruct (f_state (upd_f_packet_end false (r_fsm (rxs s)))); try discriminate;
          destruct (f_is_halfbit _); discriminate.
      + unfold full in Efl. apply Nat.eqb_neq in Efl. rewrite Hq in Efl |- *. lia.
  Qed.

  (** ** Packet end and gate *)

  Theorem packet_end_flag : forall i os1 t os2 s es,
    run E (os1 ++ OReceive t :: os2) (st0 i) = Ok (tt, s, es) ->
    existsb is_receive os2 = false ->
    f_packet_end (r_fsm (rxs s)) =
    match completed (OReceive t) (listen_all os1 listener0) with Some _ => true | None => false end.
  Proof.
    intros i os1 t os2 s es H Hno.
    pose proof (run_refines E _ _ _ _ _ (Rl0 i) H) as (_ & _ & Hf & _ & _). rewrite Hf.
    unfold listen_all at 1. rewrite fold_left_app. cbn [fold_left].
    fold (listen_all os1 listener0). set (l := listen_all os1 listener0).
    fold (listen_all os2 (listen (OReceive t) l)).
    assert (Hk : forall os l, existsb is_receive os = false -> l_fresh (listen_all os l) = l_fresh l).
    { clear. induction os as [|o os IH]; intros l H; [reflexivity|].
      cbn [existsb] in H. apply orb_false_elim in H. destruct H as [H1 H2].
      change (listen_all (o :: os) l) with (listen_all os (listen o l)). rewrite IH by exact H2.
      destruct o; try discriminate; try reflexivity; cbn [listen].
      - destruct (l_on l); reflexivity.
      - destruct (l_fresh l) eqn:El; [exact El|reflexivity]. }
    rewrite Hk by exact Hno. cbn [listen completed]. destruct (half_bit t) as [b|]; [|reflexivity].
    unfold hear. destruct (looked_at _ && _); [reflexivity|].
    destruct (reading _) as [| |bs]; try reflexivity. destruct (valid_packet bs); reflexivity.
  Qed.

  Theorem execute_gate : forall s,
    f_packet_end (r_fsm (rxs s)) = true \/ r_deque (rxs s) = [] ->
    execute E s = Ok (false, s, []).
  Proof.
    intros s H. unfold execute, bind, get.
    replace (f_packet_end (r_fsm (rxs s)) || (length (r_deque (rxs s)) =? 0)%nat) with true; [reflexivity|].
    destruct H as [-> | ->]; [reflexivity|]. cbn. rewrite orb_true_r. reflexivity.
  Qed.

  Theorem execute_one : forall s b s' es p q,
    f_packet_end (r_fsm (rxs s)) = false -> r_deque (rxs s) = p :: q ->
    execute E s = Ok (b, s', es) ->
    r_deque (rxs s') = q /\ r_fsm (rxs s') = r_fsm (rxs s).
  Proof.
    intros s b s' es p q Hp Hq H. apply execute_effect in H.
    destruct H as [([H|H] & _)|(_ & _ & Hc)]; [congruence|congruence|].
    injection Hc as H1 H2 _. rewrite Hq in H2. auto.
  Qed.
End Bits4.

(** ** Condition for resynchronisation in terms of the half bits *)

Lemma harmless_frame : forall h f, Inv h f ->
  (length (frame_so_far h) < 18)%nat -> is_logon (frame_so_far h) = false -> harmless f.
Proof.
  intros h f HI Hl Hg. unfold harmless, Inv in *. destruct (f_state f); auto.
  - destruct HI as (Hp & _ & _ & n & x & body & bits & Hn & -> & Hs & _ & Hb & Hc & _).
    unfold frame_so_far in *. rewrite body_after, Hs, bytes_of_sep, bytes_of_short in * by (auto; lia).
    cbn [fst] in *. rewrite app_nil_r in *. auto.
  - left. destruct HI as (Hp & _ & _ & _ & _ & n & x & body & q & bits & Hn & -> & Hk & Hs & Hb & _).
    assert (Hq : Forall byte q) by (rewrite Hk in Hp; apply Forall_app in Hp; apply Hp).
    unfold frame_so_far in Hg. rewrite body_after, Hs, bytes_of_sep in Hg by exact Hq.
    rewrite <- (app_nil_r bits), bytes_of_end in Hg by exact Hb. cbn [fst] in Hg. rewrite ?app_nil_r in Hg.
    rewrite Hk. exact Hg.
Qed.

Section Resync2.
  Context {I : Type} (E : Env I).
  Theorem resync_reachable : forall i os s es bs1 n1 ts1 gap bs2 n2 ts2,
    run E os (st0 i) = Ok (tt, s, es) ->
    let unfinished := frame_so_far (l_heard (listen_all os listener0)) in
    (length unfinished < 18)%nat -> is_logon unfinished = false ->
    (length (r_deque (rxs s)) <= 28)%nat ->
    packet_ok bs1 -> (10 <= n1)%nat -> plays ts1 n1 bs1 ->
    Forall (fun t => half_bit t <> Some true) gap ->
    packet_ok bs2 -> (10 <= n2)%nat -> plays ts2 n2 bs2 ->
    exists s' ex,
      run E (map OReceive (ts1 ++ gap ++ ts2)) s = Ok (tt, s', []) /\
      r_deque (rxs s') = r_deque (rxs s) ++ ex ++ [bs2] /\ (length ex <= 2)%nat /\
      f_packet_end (r_fsm (rxs s')) = true /\ f_packet (r_fsm (rxs s')) = bs2 /\
      received (r_addrs (rxs s')) = address_of bs2.
  Proof.
    intros i os s es bs1 n1 ts1 gap bs2 n2 ts2 Hrun u Hl Hg Hd Hok1 Hn1 Hp1 Hgap Hok2 Hn2 Hp2.
    pose proof (run_refines E os _ _ _ _ (Rl0 i) Hrun) as HR.
    apply (resync E _ s bs1 n1 ts1 gap bs2 n2 ts2 HR); auto.
    destruct HR as (HI & _). exact (harmless_frame _ _ HI Hl Hg).
  Qed.

  Theorem receive_packet_reachable : forall i os s es bs n ts,
    run E os (st0 i) = Ok (tt, s, es) -> f_state (r_fsm (rxs s)) = Preamble ->
    (length (r_deque (rxs s)) < 31)%nat -> packet_ok bs -> (10 <= n)%nat -> plays ts n bs ->
    exists s', run E (map OReceive ts) s = Ok (tt, s', []) /\
      r_deque (rxs s') = r_deque (rxs s) ++ [bs] /\
      f_packet_end (r_fsm (rxs s')) = true /\ f_packet (r_fsm (rxs s')) = bs /\
      received (r_addrs (rxs s')) = address_of bs /\
      packet_count (r_cnt (rxs s')) = packet_count (r_cnt (rxs s)) + 1 /\
      preamble_count (r_cnt (rxs s')) = preamble_count (r_cnt (rxs s)) + 1 /\
      qos (r_cnt (rxs s')) = qos (r_cnt (rxs s)) /\
      (primary (r_addrs (rxs s')), consist (r_addrs (rxs s')), logon (r_addrs (rxs s')), r_conf (rxs s'),
       r_logon (rxs s'), r_bidi (rxs s'), r_cv (rxs s'), r_time (rxs s'), app s', pending s') =
      (primary (r_addrs (rxs s)), consist (r_addrs (rxs s)), logon (r_addrs (rxs s)), r_conf (rxs s),
       r_logon (rxs s), r_bidi (rxs s), r_cv (rxs s), r_time (rxs s), app s, pending s).
  Proof.
    intros i os s es bs n ts Hrun Hp Hd Hok Hn Hpl.
    pose proof (run_refines E os _ _ _ _ (Rl0 i) Hrun) as HR.
    destruct (Rl_preamble _ _ HR Hp) as (m & hb & pk & pe & Hf).
    eexists. split; [apply (run_packet E bs ts n m hb pk pe s Hok Hf); auto; lia|].
    destruct s as [[] a p]. cbn. repeat split; auto.
  Qed.
End Resync2.
