(** Bit receiver: soundness, invalid durations, queue, overflow, connection to the transmitter *)
From Verif Require Import Prelude Address ZBits SpecCodec SpecTx TxProofs Tx RxState Rx CodecProofs RxLogic SpecRx
  RxBitProofs RxBitProofs2.

(** ** Acceptance means a framed packet was heard *)

Lemma pairs_samples : forall body, Nat.even (length body) = true -> pairs body (samples body).
Proof.
  fix IH 1. intros [|a [|b r]] H; cbn [length Nat.even] in H; [constructor|discriminate|].
  cbn [samples]. constructor. apply IH. exact H.
Qed.

Lemma false_sep : forall q rest,
  false :: sep q ++ rest = flat_map (fun b => false :: msb_first b) q ++ false :: rest.
Proof.
  induction q as [|b q IH]; intros rest; [reflexivity|].
  cbn [flat_map List.app]. unfold sep. cbn [flat_map]. fold (sep q).
  rewrite <- !app_assoc. cbn [List.app]. rewrite IH. reflexivity.
Qed.

Lemma frame_bits_snoc : forall q x, frame_bits (q ++ [x]) = sep q ++ msb_first x ++ [true].
Proof.
  intros q x. unfold frame_bits. rewrite flat_map_app. cbn [flat_map]. rewrite app_nil_r, <- app_assoc.
  cbn [List.app]. rewrite <- false_sep. reflexivity.
Qed.

Lemma accept_sounds : forall h f full b t f',
  Inv h f -> half_bit t = Some b -> machine full f t = (f', AAccept) ->
  sounds_like (h ++ [b]) (f_packet f') /\ Forall byte (f_packet f') /\
  (3 <= length (f_packet f') <= 18)%nat /\ xor_all (f_packet f') = 0.
Proof.
  intros h f full b t f' HI Et Em. unfold machine in Em. rewrite Et in Em.
  destruct f as [ph bc by_ ck hb pk pe].
  unfold upd_f_packet_end, upd_f_is_halfbit, machine_bit, Inv in *.
  cbn [f_state f_bit_count f_byte f_checksum f_is_halfbit f_packet f_packet_end] in *.
  destruct ph.
  - destruct full, b, (bc <? 20)%nat; inversion Em.
  - destruct full; inversion Em.
  - destruct (negb hb), full, (S bc <? 8)%nat, (length pk <? 18)%nat; inversion Em.
  - destruct HI as (Hby & Hlen & -> & -> & -> & n & x & body & q & bits & Hn & -> & -> & Hs & Hb8 & ->).
    destruct (Nat.odd (length body)) eqn:Eo; cbn [negb] in Em; [|discriminate].
    destruct full; [discriminate|].
    destruct b; cbn [negb] in Em; [|discriminate].
    destruct ((xor_all (q ++ [byte_of bits]) =? 0) && (3 <=? length (q ++ [byte_of bits]))%nat) eqn:Ev;
      [|discriminate].
    inversion Em; subst f'; clear Em. cbn [f_packet].
    apply andb_prop in Ev. destruct Ev as [E1 E2]. apply Z.eqb_eq in E1. apply Nat.leb_le in E2.
    refine (conj _ (conj Hby (conj (conj E2 Hlen) E1))).
    exists n, x, (body ++ [true]). split; [exact Hn|]. split; [|rewrite <- app_assoc; reflexivity].
    rewrite frame_bits_snoc, byte_of_msb_first by exact Hb8.
    assert (Hss : samples (body ++ [true]) = sep q ++ bits ++ [true])
      by (rewrite samples_snoc, Eo, Hs, app_assoc; reflexivity).
    rewrite <- Hss. apply pairs_samples.
    rewrite <- Nat.negb_odd, odd_length_snoc, Eo. reflexivity.
Qed.

Lemma half_bits_in_app : forall a b, half_bits_in (a ++ b) = half_bits_in a ++ half_bits_in b.
Proof. intros a b. unfold half_bits_in. apply flat_map_app. Qed.

Lemma heard_suffix : forall os l, exists pre,
  l_heard l ++ half_bits_in os = pre ++ l_heard (listen_all os l).
Proof.
  induction os as [|o os IH]; intros l.
  - exists []. cbn. apply app_nil_r.
  - change (listen_all (o :: os) l) with (listen_all os (listen o l)).
    change (half_bits_in (o :: os)) with (half_bits_in ([o] ++ os)). rewrite half_bits_in_app.
    destruct (IH (listen o l)) as (pre & Hp).
    assert (Ho : exists p1, l_heard l ++ half_bits_in [o] = p1 ++ l_heard (listen o l)).
    { destruct o as [| | |t| | | | |]; cbn [half_bits_in flat_map listen List.app l_heard];
        try (exists []; rewrite app_nil_r; reflexivity).
      - destruct (l_on l); cbn [l_heard]; [|exists []; rewrite app_nil_r; reflexivity].
        exists (l_heard l). rewrite !app_nil_r. reflexivity.
      - destruct (half_bit t) as [b|]; cbn [l_heard List.app]; [|exists []; rewrite app_nil_r; reflexivity].
        unfold hear. destruct (looked_at _ && _); cbn [l_heard]; [eexists; rewrite app_nil_r; reflexivity|].
        destruct (reading _) as [| |bs]; cbn [l_heard].
        + exists []. reflexivity.
        + eexists. rewrite app_nil_r; reflexivity.
        + destruct (valid_packet bs); cbn [l_heard]; eexists; rewrite app_nil_r; reflexivity.
      - destruct (l_fresh l); cbn [l_heard]; exists []; rewrite app_nil_r; reflexivity. }
    destruct Ho as (p1 & Ho).
    exists (p1 ++ pre). rewrite <- app_assoc, <- Hp, !app_assoc, Ho. reflexivity.
Qed.

Section Bits3.
  Context {I : Type} (E : Env I).
  Implicit Types s : st I.

  Lemma received_handler : keeps (fun r => received (r_addrs r)) (executeHandlerMode E).
  Proof. keeps_tac. Qed.

  (** What an accepted logon packet leaves in the address register *)
  Lemma accept_logon_received : forall s s' es,
    let p := f_packet (r_fsm (rxs s)) in
    Forall byte p -> (3 <= length p)%nat -> is_logon p = true ->
    accept E s = Ok (tt, s', es) -> received (r_addrs (rxs s')) = address_of p.
  Proof.
    intros s s' es p Hb Hl Hn H. subst p. unfold accept in H.
    rewrite decode_address_of in H by (auto; lia).
    apply bind_inv in H. destruct H as ([] & s1 & e1 & e2 & H & Hr & ->).
    apply bind_inv in H. destruct H as ([] & s2 & e3 & e4 & Hm & H & ->).
    inversion Hm; subst s2 e3; clear Hm.
    apply bind_inv in H. destruct H as ([] & s3 & e5 & e6 & Hm & H & ->).
    inversion Hm; subst s3 e5; clear Hm.
    apply bind_inv in H. destruct H as (a & s4 & e7 & e8 & Hm & H & ->).
    inversion Hm; subst a s4 e7; clear Hm.
    apply bind_inv in H. destruct H as ([] & s5 & e9 & e10 & Hm & H & ->).
    inversion Hm; subst s5 e9; clear Hm.
    apply bind_inv in H. destruct H as (hd & s6 & e11 & e12 & Hm & H & ->).
    pose proof (received_handler _ _ _ _ Hm) as Hc. cbn [rxs] in Hc.
    assert (Hs1 : received (r_addrs (rxs s1)) = received (r_addrs (rxs s6))).
    { destruct hd; [inversion H; reflexivity|].
      apply bind_inv in H. destruct H as (r & s7 & e13 & e14 & Hg & H & ->).
      inversion Hg; subst r s7 e13; clear Hg.
      destruct (length (r_deque (rxs s6)) <? rx_deque_size)%nat; [|discriminate].
      inversion H; subst. reflexivity. }
    unfold reset, modify in Hr. inversion Hr; subst s' e2; clear Hr.
    cbn [rxs]. transitivity (received (r_addrs (rxs s1))); [reflexivity|].
    rewrite Hs1, Hc. reflexivity.
  Qed.

  Theorem receive_sound : forall i os s es t s' es',
    run E os (st0 i) = Ok (tt, s, es) -> receive E t s = Ok (tt, s', es') ->
    (f_packet_end (r_fsm (rxs s')) = true ->
     exists pre hs bs, half_bits_in (os ++ [OReceive t]) = pre ++ hs /\ sounds_like hs bs /\
       Forall byte bs /\ (3 <= length bs <= 18)%nat /\ xor_all bs = 0 /\
       f_packet (r_fsm (rxs s')) = bs /\ received (r_addrs (rxs s')) = address_of bs /\
       r_deque (rxs s') = if is_logon bs then r_deque (rxs s) else r_deque (rxs s) ++ [bs]) /\
    (f_packet_end (r_fsm (rxs s')) = false -> r_deque (rxs s') = r_deque (rxs s)).
  Proof.
    intros i os s es t s' es' Hrun Hrec.
    pose proof (run_refines E os _ _ _ _ (Rl0 i) Hrun) as HR.
    set (l := listen_all os listener0) in *. destruct HR as (HI & Hq & Hf & Ho & Hl).
    rewrite receive_machine in Hrec.
    destruct (half_bit t) as [b|] eqn:Et.
    2: { unfold machine in Hrec. rewrite Et in Hrec. inversion Hrec; subst. split; [intro Hx; discriminate|reflexivity]. }
    pose proof (machine_sim (l_heard l) (r_fsm (rxs s)) (full s) b t HI Et) as Hs. cbv zeta in Hs.
    destruct (machine (full s) (r_fsm (rxs s)) t) as [f a] eqn:Em. cbn [fst snd] in Hs.
    assert (Hno : a = ANone \/ a = AStart \/ a = AReject ->
                  f_packet_end f = false /\ f_packet_end (r_fsm (rxs s')) = f_packet_end f /\ r_deque (rxs s') = r_deque (rxs s)).
    { intros Ha. assert (Hpe : f_packet_end f = false).
      { destruct (looked_at (l_heard l ++ [b]) && full s); [apply Hs|].
        destruct (reading (l_heard l ++ [b])); [| apply Hs|].
        - destruct Hs as [[-> _]|Hs]; [destruct Ha as [Ha|[Ha|Ha]]; discriminate|apply Hs].
        - destruct Hs as (_ & _ & Hs). destruct (valid_packet bs); [destruct Hs as [-> _]; destruct Ha as [Ha|[Ha|Ha]]; discriminate|].
          apply Hs. }
      split; [exact Hpe|].
      destruct Ha as [-> | [-> | ->]]; inversion Hrec; subst; cbn; auto. }
    destruct a.
    - destruct (Hno ltac:(auto)) as (H1 & H2 & H3). rewrite H2, H1. split; [discriminate|auto].
    - destruct (Hno ltac:(auto)) as (H1 & H2 & H3). rewrite H2, H1. split; [discriminate|auto].
    - destruct (accept_sounds _ _ _ _ _ _ HI Et Em) as (Hsnd & Hby & Hlen & Hx).
      destruct (is_logon (f_packet f)) eqn:Elg.
      + assert (Hc := accept_logon E (with_fsm f s) s' es').
        cbv zeta in Hc. unfold with_fsm in Hc. cbn [rxs r_fsm set_r_fsm r_deque r_cv] in Hc.
        specialize (Hc Hby ltac:(lia) Elg Hrec). unfold core in Hc. injection Hc as H1 H2 H3.
        assert (Hra := accept_logon_received (with_fsm f s) s' es').
        cbv zeta in Hra. unfold with_fsm in Hra. cbn [rxs r_fsm set_r_fsm] in Hra.
        specialize (Hra Hby ltac:(lia) Elg Hrec).
        rewrite H1, H2. split; [intros _|intro Hx2; discriminate].
        destruct (heard_suffix os listener0) as (pre & Hpre). cbn [listener0 l_heard List.app] in Hpre. fold l in Hpre.
        exists pre, (l_heard l ++ [b]), (f_packet f).
        rewrite half_bits_in_app, Hpre. cbn [half_bits_in flat_map]. rewrite Et, app_nil_r, Elg, <- app_assoc.
        repeat split; auto; lia.
      + assert (Hd : (length (r_deque (rxs s)) < 31)%nat).
        { destruct (Nat.eq_dec (length (r_deque (rxs s))) 31) as [H31|]; [exfalso|rewrite Hq in *; lia].
          clear - Em H31 Et. unfold machine, full in Em. rewrite Et, H31 in Em. cbn [Nat.eqb] in Em.
          unfold machine_bit in Em.
          destruct (f_state (upd_f_packet_end false (r_fsm (rxs s)))); try discriminate;
            destruct (f_is_halfbit _); discriminate. }
        rewrite accept_ordinary in Hrec; unfold with_fsm; cbn [rxs r_fsm set_r_fsm r_deque r_cv]; auto; [|lia].
        inversion Hrec; subst s' es'. unfold with_fsm. cbn -[List.app half_bits_in address_of].
        split; [intros _|intro; discriminate].
        destruct (heard_suffix os listener0) as (pre & Hpre). cbn [listener0 l_heard List.app] in Hpre. fold l in Hpre.
        exists pre, (l_heard l ++ [b]), (f_packet f).
        rewrite half_bits_in_app, Hpre. cbn [half_bits_in flat_map]. rewrite Et, app_nil_r, Elg, <- app_assoc.
        repeat split; auto; lia.
    - destruct (Hno ltac:(auto)) as (H1 & H2 & H3). rewrite H2, H1. split; [discriminate|auto].
    - discriminate.
  Qed.

  (** ** Invalid durations *)

  Definition clear_end (s : st I) : st I := with_rx (set_f_packet_end false) s.
  Definition same_but_end (x y : res (unit * st I * list event)) : Prop :=
    match x, y with
    | Ok (_, s1, e1), Ok (_, s2, e2) => clear_end s1 = clear_end s2 /\ e1 = e2
    | UB r1, UB r2 => r1 = r2
    | _, _ => False
    end.

  Lemma receive_clear : forall t s, receive E t (clear_end s) = receive E t s.
  Proof.
    intros t [[f dq cnt ad cf lg bd cv tm] i pd]. rewrite !receive_machine.
    unfold clear_end, with_rx, full. cbn [rxs set_f_packet_end set_r_fsm r_fsm r_deque app pending].
    assert (Hm : machine (length dq =? 31)%nat (upd_f_packet_end false f) t
               = machine (length dq =? 31)%nat f t) by (destruct f; reflexivity).
    rewrite Hm. destruct (machine (length dq =? 31)%nat f t) as [f' []]; reflexivity.
  Qed.

  Lemma receive_invalid : forall t s, half_bit t = None -> receive E t s = Ok (tt, clear_end s, []).
  Proof.
    intros t s H. rewrite receive_machine. unfold machine. rewrite H. destruct s as [[] i p]. reflexivity.
  Qed.

  Lemma run_clear : forall t os s, run E (OReceive t :: os) (clear_end s) = run E (OReceive t :: os) s.
  Proof.
    intros t os s. cbn [run]. unfold bind at 1. symmetry. unfold bind at 1. cbn [step].
    unfold bind. rewrite receive_clear. reflexivity.
  Qed.

  Theorem invalid_before_receive : forall t x os s, half_bit t = None ->
    run E (OReceive t :: OReceive x :: os) s = run E (OReceive x :: os) s.
  Proof.
    intros t x os s H. rewrite (run_receive_cons E t _ s tt (clear_end s) []) by (apply receive_invalid; exact H).
    rewrite run_clear. destruct (run E (OReceive x :: os) s) as [[[v s2] e2]|r]; reflexivity.
  Qed.

  Definition is_half (t : Z) : bool := match half_bit t with Some _ => true | None => false end.

  Lemma same_refl : forall x, same_but_end x x.
  Proof. intros [[[v s] e]|r]; cbn; auto. Qed.

  Theorem invalid_ignored : forall ts s,
    same_but_end (run E (map OReceive ts) s) (run E (map OReceive (filter is_half ts)) s).
  Proof.
    assert (H : forall ts s s', clear_end s' = clear_end s ->
      same_but_end (run E (map OReceive ts) s) (run E (map OReceive (filter is_half ts)) s')).
    { induction ts as [|t ts IH]; intros s s' Hc; [cbn; auto|].
      cbn [filter map]. unfold is_half at 1. destruct (half_bit t) as [b|] eqn:Et.
      - cbn [map]. rewrite <- run_clear with (s := s), <- run_clear with (s := s'), Hc.
        destruct (receive E t (clear_end s)) as [[[u s1] e1]|r] eqn:Er.
        + rewrite !(run_receive_cons E t _ _ u s1 e1) by exact Er.
          specialize (IH s1 s1 eq_refl). unfold same_but_end in *.
          destruct (run E (map OReceive ts) s1) as [[[v2 s2] e2]|r2],
                   (run E (map OReceive (filter is_half ts)) s1) as [[[v3 s3] e3]|r3]; try contradiction; auto.
          destruct IH as [H1 ->]. auto.
        + cbn [run step]. unfold bind. rewrite Er. cbn. auto.
      - rewrite (run_receive_cons E t _ s tt (clear_end s) []) by (apply receive_invalid; exact Et).
        assert (Hi : clear_end s' = clear_end (clear_end s))
          by (rewrite Hc; destruct s as [[[] ? ? ? ? ? ? ? ?] i p]; reflexivity).
        specialize (IH (clear_end s) s' Hi).
        destruct (run E (map OReceive ts) (clear_end s)) as [[[v s2] e2]|r]; exact IH. }
    intros ts s. apply H. reflexivity.
  Qed.
End Bits3.
