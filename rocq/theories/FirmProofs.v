(** Calls that keep to the rules are defined, whatever came before. *)
From Verif Require Import Prelude Address Instruction Checksum Datagram RxState Rx ZBits RxLogic RxInv SpecCodec SpecRx RxBitProofs RxBitProofs2 RxBitProofs3 RxBitProofs4
  SpecExec ExecProofs SpecConf SpecCv CvProofs2 SaneProofs SpecLogon LogonProofs LogonProofs2 LogonProofs3 LogonProofs4
  SpecBidi BidiProofs BidiProofs2 BidiProofs3 BidiProofs4 BidiProofs6 BidiProofs8 BidiProofs9 OfferProofs SpecSafe SafeProofs SafeProofs2 Preempt SpecPreempt SpecFirm.

Section Receive.
  Context {I : Type} (E : Env I).
  Implicit Types s : st I.

  (** A logon packet is completed *)
  Lemma logon_takes : forall l s t p, Rl l s -> completed (OReceive t) l = Some p -> is_logon p = true ->
    Forall byte p /\ (3 <= length p)%nat /\ exists f, f_packet f = p /\
    receive E t s = closing (if undamaged_b p then executeAutomaticLogon E (address_of p) (tl p) (entered f p s)
                             else Ok (true, entered f p s, [])).
  Proof.
    intros l s t p (HI & Hq & _ & _ & _) Hc Hlg. cbn [completed] in Hc.
    destruct (half_bit t) as [b|] eqn:Et; [|discriminate].
    pose proof (machine_sim (l_heard l) (r_fsm (rxs s)) (full s) b t HI Et) as Hs. cbv zeta in Hs.
    replace (length (l_queue l) =? 31)%nat with (full s) in Hc by (unfold full; rewrite Hq; reflexivity).
    destruct (machine (full s) (r_fsm (rxs s)) t) as [f a] eqn:Em. cbn [fst snd] in Hs.
    destruct (looked_at (l_heard l ++ [b]) && full s); [discriminate|].
    destruct (reading (l_heard l ++ [b])) as [| |bs] eqn:Er; try discriminate.
    destruct (valid_packet bs) eqn:Ev; [|discriminate]. assert (bs = p) as -> by congruence.
    destruct Hs as (Hby & Hlen & -> & Hpk).
    unfold valid_packet in Ev. apply andb_prop in Ev. destruct Ev as [_ Ev]. apply Nat.leb_le in Ev.
    split; [exact Hby|]. split; [exact Ev|]. exists f. split; [exact Hpk|].
    rewrite receive_machine, Em. unfold accept.
    change (f_packet (r_fsm (rxs (with_fsm f s)))) with (f_packet f). rewrite Hpk, decode_address_of by (auto; lia).
    unfold bind at 1. unfold bind at 1. cbn [modify]. unfold bind at 1. cbn [modify]. unfold bind at 1. cbn [lift].
    unfold bind at 1. cbn [modify]. unfold bind at 1.
    match goal with |- context [executeHandlerMode E ?x] => change x with (entered f p s) end.
    rewrite (handler_logon E) by auto. destruct (undamaged_b p).
    - destruct (executeAutomaticLogon _ _ _ _) as [[[b1 s2] es2]|u]; [|reflexivity].
      unfold ret, reset, modify, closing, with_fsm. cbn [List.app]. rewrite !app_nil_r. reflexivity.
    - reflexivity.
  Qed.

  (** A short frame does not overflow *)
  Lemma receive_short : forall l s t, Rl l s -> completed (OReceive t) l = None ->
    match half_bit t with Some b => (length (frame_so_far (l_heard l ++ [b])) <= 18)%nat | None => True end ->
    receive E t s <> UB PacketFull.
  Proof.
    intros l s t (HI & Hq & Hf & Ho & Hl) Hc Hb. cbn [completed] in Hc. destruct (half_bit t) as [b|] eqn:Et.
    2: { rewrite receive_machine. unfold machine. rewrite Et. discriminate. }
    rewrite receive_machine.
    pose proof (machine_sim (l_heard l) (r_fsm (rxs s)) (full s) b t HI Et) as Hs. cbv zeta in Hs.
    replace (length (l_queue l) =? 31)%nat with (full s) in Hc by (unfold full; rewrite Hq; reflexivity).
    destruct (machine (full s) (r_fsm (rxs s)) t) as [f a] eqn:Em. cbn [fst snd] in Hs.
    destruct (looked_at (l_heard l ++ [b]) && full s); [destruct Hs as (-> & _); discriminate|].
    destruct (reading (l_heard l ++ [b])) as [| |bs] eqn:Er.
    - destruct Hs as [[-> Hs]|[Ha _]]; [lia|destruct Ha as [-> | ->]; discriminate].
    - destruct Hs as (-> & _); discriminate.
    - destruct Hs as (Hby & Hlen & Hs). destruct (valid_packet bs); [discriminate|]. destruct Hs as (-> & _). discriminate.
  Qed.

  (** What the receiver holds after a packet *)
  Definition held (r : rx) : Prop := f_packet_end (r_fsm r) = true -> (3 <= length (f_packet (r_fsm r)))%nat.
  (** The logon answers *)
  Definition owing (due : bool) s : Prop :=
    (length (logon_answers s) <= 1)%nat /\ if due then atyp (received (r_addrs (rxs s))) = ATLogon else logon_answers s = [].

  Lemma receive_firm : forall l s t, Rl l s -> sane (rxs s) -> held (rxs s) -> owing false s -> allowed complete (OReceive t) l false ->
    exists s' es, receive E t s = Ok (tt, s', es) /\ held (rxs s') /\ owing (owes (OReceive t) l false) s' /\
      r_bidi (rxs s') = r_bidi (rxs s) /\ qos (r_cnt (rxs s')) = qos (r_cnt (rxs s)).
  Proof.
    intros l s t HR Hs Hh [Ho1 Ho2] (A1 & A2 & _). unfold owes. destruct (completed (OReceive t) l) as [p|] eqn:Ec.
    - specialize (A2 p eq_refl). destruct (is_logon p) eqn:El.
      + destruct (logon_takes l s t p HR Ec El) as (Hb & H3 & f & Hf & Hr). destruct (is_logon_254 p El) as (r & Hp & Ha). rewrite Ha in Hr.
        assert (K : forall s2 es, ear (rxs s2) = ear (rxs (entered f p s)) -> (length (logon_answers s2) <= 1)%nat -> 
          r_bidi (rxs s2) = r_bidi (rxs s) -> qos (r_cnt (rxs s2)) = qos (r_cnt (rxs s)) -> receive E t s = closing (Ok (true, s2, es)) ->
          exists s' es, receive E t s = Ok (tt, s', es) /\ held (rxs s') /\ owing (true || false) s' /\
          r_bidi (rxs s') = r_bidi (rxs s) /\ qos (r_cnt (rxs s')) = qos (r_cnt (rxs s))).
        { intros s2 es K1 K2 K3 K4 ->. do 2 eexists. split; [reflexivity|]. unfold ear in K1. injection K1 as K1 K5.
          split; [intros _; change (3 <= length (f_packet (r_fsm (rxs s2))))%nat; rewrite K1; cbn; rewrite Hf; exact H3|].
          split; [|split; [exact K3|exact K4]]. cbn [orb]. split; [exact K2|].
          change (atyp (received (r_addrs (rxs s2))) = ATLogon). rewrite K5. cbn. rewrite Ha. reflexivity. }
        destruct (undamaged_b p) eqn:Eu.
        * unfold complete in A2. rewrite El in A2. apply undamaged_spec in Eu. specialize (A2 Eu).
          pose proof (auto_exact E (entered f p s) p (entered_sane f p s Hf Hb Hs) Hb H3) as X.
          rewrite (proj2 (Nat.leb_le _ _) A2) in X. destruct X as [(a & s2 & es & X)|(_ & X)]; [|exfalso; apply X; exact Ho2].
          assert (KK : keeps ear (executeAutomaticLogon E (Addr 254 ATLogon false) (tl p))) by keeps_tac.
          assert (KB : keeps (fun r => (r_bidi r, qos (r_cnt r))) (executeAutomaticLogon E (Addr 254 ATLogon false) (tl p))) by keeps_tac.
          pose proof (KK _ _ _ _ X) as X1. pose proof (KB _ _ _ _ X) as X2. cbn beta in X2. injection X2 as X2 X3.
          assert (Forall byte (tl p)) as Hb1 by (rewrite Hp in *; inversion Hb; assumption).
          pose proof (fine_logon E (tl p) Hb1 (entered f p s) (entered_sane f p s Hf Hb Hs) Ho1) as X4. rewrite X in X4.
          rewrite X in Hr. apply (K s2 es X1 X4 X2 X3). rewrite Hr. destruct a; reflexivity.
        * exact (K (entered f p s) [] eq_refl Ho1 eq_refl eq_refl Hr).
      + destruct (receive_ordinary E l s t p HR Ec El) as (Hb & H3 & f & Hf & ->). do 2 eexists. split; [reflexivity|].
        split; [intros _; cbn; rewrite Hf; exact H3|]. split; [|split; reflexivity]. split; [exact Ho1|exact Ho2].
    - pose proof (receive_short l s t HR Ec A1) as N. destruct (receive_nothing E l s t HR Ec) as [X|(f & c & ad & -> & F1 & _ & F2 & _)]; [contradiction|].
      do 2 eexists. split; [reflexivity|]. split; [intro X; cbn in X; congruence|]. split; [split; [exact Ho1|exact Ho2]|]. split; [reflexivity|exact F2].
  Qed.
End Receive.

(** Dynamic information that waits *)
Definition store (r : rx) := (dyn_deque (r_bidi r), ch2 (r_bidi r)).
Definition stocked (r : rx) : Prop :=
  Forall (shaped 3) (dyn_deque (r_bidi r)) /\ (length (dyn_deque (r_bidi r)) <= 7)%nat /\ (6 <= length (ch2 (r_bidi r)))%nat.

Section Channels.
  Context {I : Type} (E : Env I).
  Implicit Types s : st I.

  Lemma biDi1_total : forall s, exists s' es, biDiChannel1 E s = Ok (tt, s', es).
  Proof.
    intros s. unfold biDiChannel1. rewrite bind_get.
    assert (A : exists s' es, appAdr E s = Ok (tt, s', es)).
    { rewrite appAdr_run. destruct (adr_deque (r_bidi (rxs s))); unfold transmit; do 2 eexists; reflexivity. }
    assert (L : exists s' es, appLogon E 1 s = Ok (tt, s', es)).
    { unfold appLogon. rewrite bind_get. destruct (logon_deque (r_logon (rxs s))); do 2 eexists; reflexivity. }
    destruct (atyp (received (r_addrs (rxs s)))); auto; do 2 eexists; reflexivity.
  Qed.
  Lemma stocked_keeps : forall A (m : M (I := I) A), keeps store m -> holds stocked m.
  Proof. intros A m K s a s' es H (A1 & A2 & A3). apply K in H. unfold store in H. injection H as H1 H2. unfold stocked. rewrite H1, H2. auto. Qed.
  Lemma shaped_tl : forall d (q : list (list Z)), Forall (shaped 3) (d :: q) -> length d = 3%nat /\ Forall (shaped 3) q.
  Proof. intros d q H. inversion H as [|? ? [H1 _] H2]; subst. auto. Qed.
  Lemma overwrite_room : forall buf n d, (n + length d <= length buf)%nat -> length (overwrite buf n d) = length buf.
  Proof. intros buf n d H. unfold overwrite. rewrite !app_length, firstn_length, skipn_length. lia. Qed.
  Lemma overwrite_least : forall buf d, (length buf <= length (overwrite buf 0 d))%nat.
  Proof. intros buf d. unfold overwrite. cbn [firstn List.app Nat.add]. rewrite app_length, skipn_length. lia. Qed.
  Lemma dyn_loop_firm : forall dq buf n, Forall (shaped 3) dq -> dq <> [] -> (n + 3 <= length buf)%nat ->
    exists rest buf' n', dyn_loop dq buf n = Ok (rest, buf', n') /\ Forall (shaped 3) rest /\ (length rest <= length dq)%nat /\ length buf' = length buf.
  Proof.
    induction dq as [|d dq IH]; intros buf n Hs Hn Hl; [contradiction|]. apply shaped_tl in Hs. destruct Hs as [Hd Hs].
    cbn [dyn_loop]. rewrite Hd. replace (n + 3 <=? length buf)%nat with true by (symmetry; apply Nat.leb_le; exact Hl).
    assert (length (overwrite buf n d) = length buf) as Hb by (apply overwrite_room; lia).
    destruct dq as [|d2 dq]; [exists [], (overwrite buf n d), (n + 3)%nat; split; [reflexivity|]; cbn [length]; auto with arith|].
    destruct (_ <=? _)%nat eqn:El.
    - apply Nat.leb_le in El. pose proof Hs as Hs2. apply shaped_tl in Hs2. destruct Hs2 as [Hd2 _].
      destruct (IH (overwrite buf n d) (n + 3)%nat Hs) as (rest & buf' & n' & -> & K1 & K2 & K3); [discriminate|lia|].
      do 3 eexists. split; [reflexivity|]. split; [exact K1|]. split; [cbn [length] in *; lia|congruence].
    - do 3 eexists. split; [reflexivity|]. split; [exact Hs|]. split; [cbn [length]; lia|exact Hb].
  Qed.
  Lemma appDyn_firm : forall s, stocked (rxs s) -> exists s' es, appDyn E s = Ok (tt, s', es) /\ stocked (rxs s').
  Proof.
    intros s (Hdy & Hdl & Hc2). unfold appDyn. rewrite bind_get. destruct (dyn_deque (r_bidi (rxs s))) as [|d q] eqn:Eq.
    { do 2 eexists. split; [reflexivity|]. unfold stocked. rewrite Eq. auto. }
    destruct (dyn_loop_firm (d :: q) (ch2 (r_bidi (rxs s))) 0 Hdy) as (rest & buf & n & -> & H1 & H2 & H3); [discriminate|lia|].
    rewrite ExecProofs.bind_lift. unfold bind, modify, call. cbn [rxs app pending]. do 2 eexists. split; [reflexivity|].
    unfold stocked. cbn. split; [exact H1|]. cbn [length] in *. lia.
  Qed.
  Lemma biDi2_firm : forall s, stocked (rxs s) -> (3 <= length (f_packet (r_fsm (rxs s))))%nat ->
    exists s' es, biDiChannel2 E s = Ok (tt, s', es) /\ stocked (rxs s').
  Proof.
    intros s Hs H3. unfold biDiChannel2. rewrite bind_get. cbv zeta.
    assert (N : exists s' es, @ret I _ tt s = Ok (tt, s', es) /\ stocked (rxs s')) by (do 2 eexists; split; [reflexivity|exact Hs]).
    pose proof (appDyn_firm s Hs) as D. destruct Hs as (A1 & A2 & A3).
    assert (P : exists s' es, appPom E s = Ok (tt, s', es) /\ stocked (rxs s')).
    { unfold appPom. rewrite bind_get. destruct (negb _); [exact N|]. destruct (negb _); [do 2 eexists; split; [reflexivity|repeat split; assumption]|].
      destruct (pom_deque (r_bidi (rxs s))) as [|d q]; [exact N|]. do 2 eexists. split; [reflexivity|]. unfold stocked. cbn -[overwrite skipn].
      split; [exact A1|]. split; [exact A2|]. pose proof (overwrite_least (ch2 (r_bidi (rxs s))) d). lia. }
    assert (T : exists s' es, appTos E s = Ok (tt, s', es) /\ stocked (rxs s')).
    { unfold appTos. rewrite bind_get. destruct (tos_deque (r_bidi (rxs s))) as [|d q]; [exact N|]. do 2 eexists. split; [reflexivity|]. unfold stocked. cbn -[overwrite skipn].
      split; [exact A1|]. split; [exact A2|]. pose proof (overwrite_least (ch2 (r_bidi (rxs s))) d). lia. }
    assert (L : exists s' es, appLogon E 2 s = Ok (tt, s', es) /\ stocked (rxs s')).
    { unfold appLogon. rewrite bind_get. destruct (logon_deque (r_logon (rxs s))) as [|d q]; [exact N|]. do 2 eexists. split; [reflexivity|]. unfold stocked. cbn -[overwrite skipn].
      split; [exact A1|]. split; [exact A2|]. pose proof (overwrite_least (ch2 (r_bidi (rxs s))) (skipn 2 d)). lia. }
    destruct (packet_decodes _ H3) as (j & Hj).
    destruct (atyp (received (r_addrs (rxs s)))); auto.
    all: destruct (addr_eqb _ _); [rewrite Hj, ExecProofs.bind_lift; destruct j; auto|]; destruct (_ && _); auto.
  Qed.
End Channels.
