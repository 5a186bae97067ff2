(** BiDi: the two channels in every state *)
From Verif Require Import Prelude Address Instruction Datagram Packets Backoff RxState Rx ZBits RxLogic RxInv SpecCodec CodecProofs CodecProofs2
  SpecRx RxBitProofs SpecExec ExecProofs SpecConf SpecCv SaneProofs SpecLogon LogonProofs LogonProofs2 LogonProofs3 LogonProofs4 SpecBidi BidiProofs.

Section Channels.
  Context {I : Type} (E : Env I).
  Implicit Types s : st I.

  (** ** The invariant in every state *)
  Definition after_transmit s (r : rx) (x : res (unit * st I * list event)) (es : list event) : Prop :=
    exists i, x = Ok (tt, Mk_st r i (pending s), es).
  Lemma transmit_after : forall s r d, after_transmit s r (transmit E s r d) [ETransmitBiDi d].
  Proof. intros. eexists. reflexivity. Qed.
  Lemma nothing_after : forall s, after_transmit s (rxs s) (Ok (tt, s, [])) [].
  Proof. intros [r i p]. exists i. reflexivity. Qed.

  Lemma talk_app : forall m : M (I := I) unit,
    (forall s, talk (rxs s) -> exists r es, after_transmit s r (m s) es /\ talk r) -> holds talk m.
  Proof.
    intros m Hm s a s' es H Hs. destruct (Hm s Hs) as (r & e & (i & Hi) & Hr). rewrite Hi in H. inversion H; subst. exact Hr.
  Qed.
  Lemma Forall_skipn' : forall A (P : A -> Prop) n l, Forall P l -> Forall P (skipn n l).
  Proof. induction n as [|n IH]; intros [|x l] H; cbn [skipn]; auto. inversion H; auto. Qed.

  Lemma talk_appAdr : holds talk (appAdr E).
  Proof.
    apply talk_app. intros s Hs. rewrite appAdr_run. pose proof Hs as H0. open_talk H0. destruct (adr_deque (r_bidi (rxs s))) as [|d q] eqn:Eq.
    - eexists. eexists. split; [apply nothing_after|exact Hs].
    - eexists. eexists. split; [apply transmit_after|]. inversion Had as [|? ? [Hd _] Hq]; subst. unfold talk. cbn [length] in *. cbn.
      close_talk; lia.
  Qed.
  Lemma talk_appPom : holds talk (appPom E).
  Proof.
    apply talk_app. intros s Hs. rewrite appPom_run. pose proof Hs as H0. open_talk H0.
    destruct (negb _); [eexists; eexists; split; [apply nothing_after|exact Hs]|].
    destruct (negb _); [eexists; eexists; split; [apply transmit_after|exact Hs]|].
    destruct (pom_deque (r_bidi (rxs s))) as [|d q] eqn:Eq.
    - eexists. eexists. split; [apply nothing_after|exact Hs].
    - eexists. eexists. split; [apply transmit_after|]. inversion Hpo as [|? ? [Hd _] Hq]; subst. unfold talk. cbn [length] in *.
      cbn -[overwrite]. close_talk; try lia. rewrite overwrite_length; lia.
  Qed.
  Lemma talk_appTos : holds talk (appTos E).
  Proof.
    apply talk_app. intros s Hs. rewrite appTos_run. pose proof Hs as H0. open_talk H0. destruct (tos_deque (r_bidi (rxs s))) as [|d q] eqn:Eq.
    - eexists. eexists. split; [apply nothing_after|exact Hs].
    - eexists. eexists. split; [apply transmit_after|]. inversion Hto as [|? ? [Hd _] Hq]; subst. unfold talk. cbn [length] in *.
      cbn -[overwrite]. close_talk; try lia. rewrite overwrite_length; lia.
  Qed.
  Lemma talk_appLogon1 : holds talk (appLogon E 1).
  Proof.
    apply talk_app. intros s Hs. rewrite appLogon1_run by exact Hs. pose proof Hs as H0. open_talk H0. destruct (logon_deque (r_logon (rxs s))) as [|d q] eqn:Eq.
    - eexists. eexists. split; [apply nothing_after|exact Hs].
    - eexists. eexists. split; [apply transmit_after|]. inversion Hlg as [|? ? [Hd _] Hq]; subst. unfold talk. cbn -[firstn]. close_talk.
      + rewrite Eq. exact Hlg.
      + rewrite firstn_length. lia.
  Qed.
  Lemma talk_appLogon2 : holds talk (appLogon E 2).
  Proof.
    apply talk_app. intros s Hs. rewrite appLogon2_run by exact Hs. pose proof Hs as H0. open_talk H0. destruct (logon_deque (r_logon (rxs s))) as [|d q] eqn:Eq.
    - eexists. eexists. split; [apply nothing_after|exact Hs].
    - eexists. eexists. split; [apply transmit_after|]. inversion Hlg as [|? ? [Hd _] Hq]; subst. unfold talk. cbn -[skipn]. close_talk.
      rewrite skipn_length. lia.
  Qed.
  Lemma talk_appDyn : holds talk (appDyn E).
  Proof.
    apply talk_app. intros s Hs. destruct (appDyn_run E s Hs) as (buf & Hb & ->). pose proof Hs as H0. open_talk H0.
    destruct (dyn_deque (r_bidi (rxs s))) as [|d q] eqn:Eq.
    - eexists. eexists. split; [apply nothing_after|exact Hs].
    - eexists. eexists. split; [apply transmit_after|]. unfold talk. cbn -[skipn]. close_talk.
      + exact (Forall_skipn' _ _ 2 _ Hdy).
      + pose proof (skipn_length 2 (d :: q)). lia.
  Qed.
  Ltac talk_ch :=
    lazymatch goal with
    | |- holds talk (appAdr _) => apply talk_appAdr
    | |- holds talk (appPom _) => apply talk_appPom
    | |- holds talk (appTos _) => apply talk_appTos
    | |- holds talk (appDyn _) => apply talk_appDyn
    | |- holds talk (appLogon _ 1) => apply talk_appLogon1
    | |- holds talk (appLogon _ 2) => apply talk_appLogon2
    | |- _ => holds1
    end.
  Lemma talk_step : forall o, holds talk (step E o).
  Proof.
    intros o. destruct o; cbn [step].
    - repeat holds1.
    - repeat holds1.
    - repeat holds1.
    - apply holds_bind; [apply talk_receive|intro; apply holds_ret].
    - apply talk_execute.
    - apply holds_bind; [apply talk_datagram|intro; apply holds_ret].
    - unfold biDiChannel1. repeat talk_ch.
    - unfold biDiChannel2. repeat talk_ch.
    - intros s b s' es H Hs. destruct (nth_error (pending s) i) as [c|]; [|inversion H; subst; exact Hs].
      assert (holds talk (bind (run_cb E c v) (fun _ => ret false))) as K; [|exact (K _ _ _ _ H Hs)].
      apply holds_bind; [apply talk_run_cb|intro; apply holds_ret].
  Qed.
  Lemma talk_run : forall os, holds talk (run E os).
  Proof. induction os as [|o os IH]; [apply holds_ret|]. cbn [run]. apply holds_bind; [apply talk_step|intro; exact IH]. Qed.
  Lemma talk_0 : forall i, talk (rxs (st0 (I := I) i)).
  Proof. intros i. unfold talk. cbn. close_talk; try apply Forall_nil; lia. Qed.
  Lemma talk_reached : forall s, reached E s -> talk (rxs s).
  Proof. intros s (i & os & es & H). exact (talk_run os _ _ _ _ H (talk_0 i)). Qed.

  (** ** A packet was just completed *)
  Definition heard_inv (r : rx) : Prop := f_packet_end (r_fsm r) = true ->
    Forall byte (f_packet (r_fsm r)) /\ (3 <= length (f_packet (r_fsm r)))%nat /\ received (r_addrs r) = address_of (f_packet (r_fsm r)).

  Definition ear (r : rx) := (r_fsm r, received (r_addrs r)).
  Lemma ear_dyn : forall ds, keeps ear (@dyn_all I ds).
  Proof. induction ds as [|d ds IH]; [keeps_tac|]. apply keeps_bind; [keeps_tac|intros _; exact IH]. Qed.
  Lemma ear_execute : keeps ear (execute E). Proof. keeps_tac. Qed.
  Lemma ear_biDi2 : keeps ear (biDiChannel2 E). Proof. keeps_tac. Qed.
  Lemma ear_biDi1 : keeps ear (biDiChannel1 E). Proof. keeps_tac. Qed.
  Lemma ear_datagram : forall ds, keeps ear (@datagram I ds).
  Proof.
    intros ds. unfold datagram. apply keeps_bind; [apply keeps_get|intros r].
    apply keeps_bind; [keeps_tac|intros _]. apply keeps_bind; [apply keeps_get|intros r']. destruct (block_dyn _); [apply keeps_ret|apply ear_dyn].
  Qed.

  Lemma completed_took : forall i os s e1 t p u s' e2, run E os (st0 i) = Ok (tt, s, e1) ->
    completed (OReceive t) (listen_all os listener0) = Some p -> receive E t s = Ok (u, s', e2) ->
    last_address s' = address_of p /\ last_bytes s' = p /\ cutout s' /\ Forall byte p /\ (3 <= length p)%nat.
  Proof.
    intros i os s e1 t p u s' e2 Hrun Ec H. pose proof (run_refines E _ _ _ _ _ (Rl0 i) Hrun) as HR. destruct (is_logon p) eqn:Eg.
    - destruct (logon_receive E s t p) as (_ & Hb & H3 & f & Hf & Hr); [exists i, os, e1; auto|exact Eg|]. rewrite Hr in H. clear Hr.
      assert (K : forall s2, ear (rxs s2) = ear (rxs (entered f p s)) -> last_address (with_fsm (reset_fsm (r_fsm (rxs s2))) s2) = address_of p /\
        last_bytes (with_fsm (reset_fsm (r_fsm (rxs s2))) s2) = p /\ cutout (with_fsm (reset_fsm (r_fsm (rxs s2))) s2) /\ Forall byte p /\ (3 <= length p)%nat).
      { intros s2 K. unfold ear in K. injection K as K1 K2. unfold last_address, last_bytes, cutout.
        change (f_packet (r_fsm (rxs (with_fsm (reset_fsm (r_fsm (rxs s2))) s2)))) with (f_packet (r_fsm (rxs s2))).
        change (f_packet_end (r_fsm (rxs (with_fsm (reset_fsm (r_fsm (rxs s2))) s2)))) with (f_packet_end (r_fsm (rxs s2))).
        change (received (r_addrs (rxs (with_fsm (reset_fsm (r_fsm (rxs s2))) s2)))) with (received (r_addrs (rxs s2))).
        rewrite K1, K2. repeat split; auto. }
      destruct (undamaged_b p); cbn [closing] in H.
      + destruct (executeAutomaticLogon E (address_of p) (tl p) (entered f p s)) as [[[u2 s2] es2]|] eqn:Ex; [|discriminate].
        cbn [closing] in H. inversion H; subst s'. apply K. assert (keeps ear (executeAutomaticLogon E (address_of p) (tl p))) as KK by keeps_tac.
        exact (KK _ _ _ _ Ex).
      + inversion H; subst s'. exact (K _ eq_refl).
    - destruct (receive_ordinary E _ s t p HR Ec Eg) as (Hb & Hl & f & Hf & Hr). rewrite Hr in H. inversion H; subst s'. cbn. rewrite Hf. repeat split; auto.
  Qed.

  Lemma heard_step : forall i os s e1 o b s' e2, run E os (st0 i) = Ok (tt, s, e1) -> heard_inv (rxs s) ->
    step E o s = Ok (b, s', e2) -> heard_inv (rxs s').
  Proof.
    intros i os s e1 o b s' e2 Hrun Hq H.
    assert (Keep : ear (rxs s') = ear (rxs s) -> heard_inv (rxs s')).
    { intros K. unfold ear in K. injection K as K1 K2. unfold heard_inv in *. rewrite K1, K2. exact Hq. }
    destruct o; cbn [step] in H;
      try (lazymatch type of H with execute _ _ = _ => fail | _ => idtac end; apply bind_inv in H; destruct H as (u & s1 & e3 & e4 & H & H2 & _); inversion H2; subst; clear H2).
    - apply Keep. assert (keeps ear (init E)) as K by keeps_tac. exact (K _ _ _ _ H).
    - apply Keep. assert (keeps ear (@enable I)) as K by keeps_tac. exact (K _ _ _ _ H).
    - unfold disable in H. rewrite bind_get in H. destruct (negb _); [inversion H; subst; exact Hq|].
      unfold bind, modify, reset in H. inversion H; subst. exact Hq.
    - pose proof (run_refines E _ _ _ _ _ (Rl0 i) Hrun) as HR. destruct (completed (OReceive time) (listen_all os listener0)) as [p|] eqn:Ec.
      + destruct (completed_took _ _ _ _ _ _ _ _ _ Hrun Ec H) as (H1 & H2 & _ & H3 & H4). intros _.
        unfold last_address, last_bytes in *. rewrite H1, H2. auto.
      + destruct (receive_nothing E _ s time HR Ec) as [Hr|(f & c & ad & Hr & Hp & _)]; [congruence|]. rewrite Hr in H. inversion H; subst s'.
        unfold heard_inv. cbn [rxs r_fsm]. rewrite Hp. discriminate.
    - exact (Keep (ear_execute _ _ _ _ H)).
    - exact (Keep (ear_datagram _ _ _ _ _ H)).
    - exact (Keep (ear_biDi1 _ _ _ _ H)).
    - exact (Keep (ear_biDi2 _ _ _ _ H)).
    - destruct (nth_error (pending s) i0) as [c|]; [|inversion H; subst; exact Hq]. apply Keep.
      assert (keeps ear (bind (run_cb E c v) (fun _ => ret false))) as K by keeps_tac. exact (K _ _ _ _ H).
  Qed.
  Lemma heard_run : forall i os s es, run E os (st0 i) = Ok (tt, s, es) -> heard_inv (rxs s).
  Proof.
    intros i os. induction os as [|o os IH] using rev_ind; intros s es H.
    - inversion H; subst. discriminate.
    - apply (run_snoc E) in H. destruct H as (s1 & e1 & b & e2 & H & H2). exact (heard_step _ _ _ _ _ _ _ _ H (IH _ _ H) H2).
  Qed.
  Lemma heard_reached : forall s, reached E s -> cutout s ->
    Forall byte (last_bytes s) /\ (3 <= length (last_bytes s))%nat /\ last_address s = address_of (last_bytes s).
  Proof. intros s (i & os & es & H) Hc. exact (heard_run _ _ _ _ H Hc). Qed.
End Channels.
