(** BiDi: shape of the answers waiting, in every state; what the two channels transmit *)
From Verif Require Import Prelude Address Instruction Datagram Packets Backoff RxState Rx ZBits RxLogic RxInv SpecCodec CodecProofs CodecProofs2
  SpecRx RxBitProofs SpecExec ExecProofs SpecConf SpecCv SaneProofs SpecLogon LogonProofs LogonProofs2 LogonProofs4 SpecBidi.

(** ** Encoded datagrams *)
Definition shaped (n : nat) (d : list Z) : Prop := length d = n /\ Forall legal d.

Lemma lut_legal : Forall legal encode_lut.
Proof.
  assert (forallb (fun b => (0 <=? b) && (b <? 256) && (ones8 b =? 4)) encode_lut = true) as H by (vm_compute; reflexivity).
  apply Forall_forall. intros b Hb. rewrite forallb_forall in H. specialize (H b Hb). unfold legal, byte. lia.
Qed.
Lemma encode_shaped : forall d cs, encode_datagram d = Ok cs -> shaped (length d) cs.
Proof.
  induction d as [|b d IH]; intros cs H; cbn [encode_datagram] in H.
  - apply Ok_inj in H. subst. split; [reflexivity|constructor].
  - unfold encode1 in H. destruct (nth_error encode_lut (Z.to_nat b)) as [v|] eqn:Ev; [|discriminate]. cbn [rbind] in H.
    destruct (encode_datagram d) as [vs|] eqn:Ed; [|discriminate]. cbn [rbind] in H. apply Ok_inj in H. subst cs.
    destruct (IH vs eq_refl) as [H1 H2]. split; [cbn [length]; congruence|]. constructor; [|exact H2].
    pose proof lut_legal as K. rewrite Forall_forall in K. apply K. exact (nth_error_In _ _ Ev).
Qed.
Lemma digits6_length : forall n d acc, length (fst (digits6 n d acc)) = (n + length acc)%nat.
Proof. induction n as [|n IH]; intros d acc; [reflexivity|]. cbn [digits6]. rewrite IH. cbn [length]. lia. Qed.
Lemma id_shaped : forall i id v cs, rbind (make_datagram_id i id v) encode_datagram = Ok cs -> shaped (datagram_size i) cs.
Proof.
  intros i id v cs H. unfold make_datagram_id in H. destruct (_ <? _); [|discriminate].
  pose proof (digits6_length (datagram_size i - 1) v []) as L. destruct (digits6 (datagram_size i - 1) v []) as [tl rest]. cbn [fst rbind] in *.
  apply encode_shaped in H. cbn [length] in H, L. rewrite Nat.add_0_r in L. rewrite L in H.
  replace (S (datagram_size i - 1)) with (datagram_size i) in H by (destruct i; reflexivity). exact H.
Qed.
Lemma plain_shaped : forall i v cs, rbind (make_datagram i v) encode_datagram = Ok cs -> shaped (datagram_size i) cs.
Proof.
  intros i v cs H. unfold make_datagram in H. destruct (_ <? _); [|discriminate]. cbn [rbind] in H.
  apply encode_shaped in H. rewrite digits6_length, Nat.add_0_r in H. exact H.
Qed.
Lemma shaped_app : forall n m a b, shaped n a -> shaped m b -> shaped (n + m) (a ++ b).
Proof. intros n m a b [H1 H2] [K1 K2]. split; [rewrite app_length; congruence|apply Forall_app; auto]. Qed.

(** ** Invariant *)
Definition talk (r : rx) : Prop :=
  Forall (shaped 2) (adr_deque (r_bidi r)) /\ Forall (shaped 2) (pom_deque (r_bidi r)) /\
  Forall (shaped 3) (dyn_deque (r_bidi r)) /\ (length (dyn_deque (r_bidi r)) <= 7)%nat /\
  Forall (shaped 6) (tos_deque (r_bidi r)) /\ Forall (shaped 8) (logon_deque (r_logon r)) /\
  length (ch1 (r_bidi r)) = 2%nat /\ length (ch2 (r_bidi r)) = 6%nat /\ (length (pom_deque (r_bidi r)) <= 1)%nat /\
  (length (tos_deque (r_bidi r)) <= 1)%nat /\ (length (adr_deque (r_bidi r)) <= 2)%nat.

Ltac open_talk H := destruct H as (Had & Hpo & Hdy & Hdl & Hto & Hlg & Hc1 & Hc2 & Hpl & Htl & Hal).
Ltac close_talk := refine (conj _ (conj _ (conj _ (conj _ (conj _ (conj _ (conj _ (conj _ (conj _ (conj _ _)))))))))); try assumption.

Section Talk.
  Context {I : Type} (E : Env I).
  Implicit Types s : st I.

  Lemma talk_adr : holds talk (@adr I).
  Proof.
    unfold adr. apply holds_get_bind. intros r s Hr Hs b s' es H. cbv zeta in H.
    destruct (negb (ch1_addr_enabled (r_conf r)) || negb (length (adr_deque (r_bidi r)) =? 0)%nat) eqn:Eb;
      [inversion H; subst; exact Hs|].
    apply orb_false_elim in Eb. destruct Eb as [_ Eb]. apply negb_false_iff, Nat.eqb_eq in Eb.
    assert (K : forall a, holds talk (bind (lift (adrHigh r a)) (fun hi => bind (lift (adrLow r a)) (fun lo =>
      modify (I := I) (set_adr_deque (adr_deque (r_bidi r) ++ [hi; lo])))))).
    { intros a. apply holds_lift_bind. intros hi Hhi. apply holds_lift_bind. intros lo Hlo. apply id_shaped in Hhi, Hlo.
      apply holds_modify. intros r0 H0. open_talk H0. destruct (adr_deque (r_bidi r)); [|discriminate].
      unfold talk. cbn. close_talk; [repeat (apply Forall_cons; [assumption|]); apply Forall_nil|lia]. }
    subst r.
    repeat match type of H with (if ?c then _ else _) _ = _ => destruct c end; try (inversion H; subst; exact Hs);
      exact (K _ _ _ _ _ H Hs).
  Qed.
  Lemma talk_pom : forall v, holds talk (@pom I v).
  Proof.
    intros v. unfold pom.
    repeat lazymatch goal with
    | |- holds _ (bind (lift _) _) => apply holds_lift_bind; intros x Hx
    | |- holds _ (modify _) => fail
    | |- _ => holds1
    end.
    apply id_shaped in Hx. apply holds_modify. intros r0 H0. open_talk H0. unfold talk. cbn. close_talk; [|lia].
    apply Forall_cons; [exact Hx|apply Forall_nil].
  Qed.
  Lemma talk_clear : holds talk (modify (I := I) (set_pom_deque [])).
  Proof. apply holds_modify. intros r0 H0. open_talk H0. unfold talk. cbn. close_talk; [apply Forall_nil|lia]. Qed.
  Ltac talk1 :=
    lazymatch goal with
    | |- holds talk (modify (set_pom_deque [])) => apply talk_clear
    | |- holds talk (pom _) => apply talk_pom
    | |- holds talk adr => apply talk_adr
    | |- _ => holds1
    end.
  Lemma talk_tipoff : holds talk (tipOffSearch E).
  Proof.
    unfold tipOffSearch. apply holds_bind; [repeat talk1|intro b]. apply holds_get_bind. intros r s Hr Hs u s' es H.
    destruct (b || _) eqn:Eb; [inversion H; subst; exact Hs|]. apply orb_false_elim in Eb. destruct Eb as [_ Eb]. apply negb_false_iff, Nat.eqb_eq in Eb.
    cbv zeta in H. destruct (30 <=? _); [inversion H; subst; exact Hs|]. subst r. match type of H with ?m s = _ => assert (holds talk m) as K; [|exact (K _ _ _ _ H Hs)] end.
    apply holds_lift_bind. intros hi Hhi. apply holds_lift_bind. intros lo Hlo. apply holds_lift_bind. intros tm Htm.
    apply id_shaped in Hhi, Hlo, Htm. apply holds_modify. intros r0 H0. open_talk H0. destruct (tos_deque (r_bidi (rxs s))); [|discriminate].
    unfold talk. cbn. close_talk; [|lia]. apply Forall_cons; [|apply Forall_nil].
    exact (shaped_app 2 4 _ _ Hhi (shaped_app 2 2 _ _ Hlo Htm)).
  Qed.
  Ltac talk2 :=
    lazymatch goal with
    | |- holds talk (tipOffSearch _) => apply talk_tipoff
    | |- _ => talk1
    end.
  Lemma talk_execute : holds talk (execute E).
  Proof. unfold execute. repeat talk2. Qed.
  Lemma talk_push_logon : forall d, shaped 8 d -> holds talk (@push_logon I d).
  Proof.
    intros d Hd. unfold push_logon. apply holds_get_bind. intros r s Hr Hs u s' es H. destruct (_ <? 1)%nat; [|discriminate].
    inversion H; subst. cbn [rxs]. open_talk Hs. unfold talk. cbn. close_talk. apply Forall_app. split; [assumption|].
    apply Forall_cons; [exact Hd|apply Forall_nil].
  Qed.
  Lemma crc_shaped : forall d cs, crc_datagram d = Ok cs -> shaped 8 cs.
  Proof.
    intros d cs H. unfold crc_datagram in H. destruct d as [|a [|b [|c [|d [|e [|]]]]]]; try discriminate. exact (plain_shaped B48 _ _ H).
  Qed.
  Ltac talk3 :=
    lazymatch goal with
    | |- holds talk (bind (lift (crc_datagram _)) _) =>
        let x := fresh in let Hx := fresh in apply holds_lift_bind; intros x Hx; apply talk_push_logon; exact (crc_shaped _ _ Hx)
    | |- holds talk (bind (lift (rbind (make_datagram_id B48 _ _) _)) _) =>
        let x := fresh in let Hx := fresh in apply holds_lift_bind; intros x Hx; apply talk_push_logon; exact (id_shaped B48 _ _ _ Hx)
    | |- _ => talk2
    end.
  Lemma talk_handler : holds talk (executeHandlerMode E).
  Proof. unfold executeHandlerMode. repeat talk3. Qed.
  Lemma talk_receive : forall t, holds talk (receive E t).
  Proof.
    intros t. unfold receive, receive_bit, receive_packet_end.
    repeat lazymatch goal with |- holds talk (executeHandlerMode _) => apply talk_handler | |- _ => holds1 end.
  Qed.
  Lemma talk_run_cb : forall c v, holds talk (run_cb E c v).
  Proof. intros. repeat talk2. Qed.
  Lemma talk_dyn_push : forall d x, holds talk (@dyn_push I d x).
  Proof.
    intros d x. unfold dyn_push. apply holds_get_bind. intros r s Hr Hs u s' es H.
    destruct (_ || _) eqn:Eb; [inversion H; subst; exact Hs|]. apply orb_false_elim in Eb. destruct Eb as [_ Eb]. apply Nat.eqb_neq in Eb.
    apply bind_inv in H. destruct H as (dg & s1 & e1 & e2 & H1 & H2 & _). destruct (rbind _ _) as [y|] eqn:Ey; [|discriminate].
    inversion H1; subst. apply id_shaped in Ey. inversion H2; subst. cbn [rxs] in *. change rx_bidi_deque_size with 7%nat in Eb.
    open_talk Hs. unfold talk. cbn. rewrite app_length. cbn [length]. close_talk; [|lia].
    apply Forall_app. split; [assumption|]. apply Forall_cons; [exact Ey|apply Forall_nil].
  Qed.
  Lemma talk_datagram : forall ds, holds talk (@datagram I ds).
  Proof.
    intros ds. unfold datagram. assert (holds talk (@dyn_all I ds)) as K.
    { induction ds as [|a ds IH]; [apply holds_ret|]. cbn [dyn_all]. apply holds_bind; [apply talk_dyn_push|intro; exact IH]. }
    apply holds_bind; [apply holds_get|intro r]. apply holds_bind.
    - destruct (_ =? _)%nat; [holds1|]. destruct (_ =? 0)%nat; [|holds1]. apply holds_bind; [holds1|intro; apply talk_dyn_push].
    - intros _. apply holds_bind; [apply holds_get|intro r']. destruct (block_dyn _); [apply holds_ret|exact K].
  Qed.

  (** ** Channels *)
  Lemma overwrite_length : forall buf d, (length d <= length buf)%nat -> length (overwrite buf 0 d) = length buf.
  Proof. intros buf d H. unfold overwrite. cbn [firstn List.app Nat.add]. rewrite app_length, skipn_length. lia. Qed.
  Lemma overwrite_whole : forall buf d, length d = length buf -> overwrite buf 0 d = d.
  Proof. intros buf d H. unfold overwrite. cbn [firstn List.app Nat.add]. rewrite H, skipn_all, app_nil_r. reflexivity. Qed.
  Lemma overwrite_front : forall buf d, firstn (length d) (overwrite buf 0 d) = d.
  Proof. intros buf d. unfold overwrite. cbn [firstn List.app Nat.add]. rewrite firstn_app, Nat.sub_diag, firstn_all. cbn [firstn]. apply app_nil_r. Qed.

  Definition transmit (s : st I) (r : rx) (d : list Z) : res (unit * st I * list event) :=
    Ok (tt, Mk_st r (e_hook E (app s) (ETransmitBiDi d)) (pending s), [ETransmitBiDi d]).

  Lemma appAdr_run : forall s, appAdr E s = match adr_deque (r_bidi (rxs s)) with
    | [] => Ok (tt, s, [])
    | d :: q => transmit s (set_adr_deque q (set_ch1 d (rxs s))) d
    end.
  Proof. intros s. unfold appAdr, transmit, bind, get. destruct (adr_deque (r_bidi (rxs s))) as [|d q]; reflexivity. Qed.

  Lemma appPom_run : forall s, appPom E s =
    if negb (ch2_data_enabled (r_conf (rxs s))) then Ok (tt, s, [])
    else if negb (list_eqb (f_packet (r_fsm (rxs s))) (last_own_cv_packet (r_cv (rxs s)))) then transmit s (rxs s) [0x0F]
    else match pom_deque (r_bidi (rxs s)) with
         | [] => Ok (tt, s, [])
         | d :: q => transmit s (set_pom_deque q (set_ch2 (overwrite (ch2 (r_bidi (rxs s))) 0 d) (rxs s))) d
         end.
  Proof.
    intros s. unfold appPom, transmit. rewrite bind_get. destruct (negb _); [reflexivity|]. destruct (negb _); [reflexivity|].
    destruct (pom_deque (r_bidi (rxs s))) as [|d q]; [reflexivity|]. unfold bind, get, modify, call. cbn [rxs app pending].
    cbn [r_bidi set_ch2 ch2 set_r_bidi upd_ch2]. rewrite overwrite_front. reflexivity.
  Qed.

  Lemma appTos_run : forall s, appTos E s = match tos_deque (r_bidi (rxs s)) with
    | [] => Ok (tt, s, [])
    | d :: q => transmit s (set_tos_deque q (set_ch2 (overwrite (ch2 (r_bidi (rxs s))) 0 d) (rxs s))) d
    end.
  Proof.
    intros s. unfold appTos, transmit. rewrite bind_get.
    destruct (tos_deque (r_bidi (rxs s))) as [|d q]; [reflexivity|]. unfold bind, get, modify, call. cbn [rxs app pending].
    cbn [r_bidi set_ch2 ch2 set_r_bidi upd_ch2]. rewrite overwrite_front. reflexivity.
  Qed.

  Lemma appLogon1_run : forall s, talk (rxs s) -> appLogon E 1 s = match logon_deque (r_logon (rxs s)) with
    | [] => Ok (tt, s, [])
    | d :: q => transmit s (set_ch1 (firstn 2 d) (rxs s)) (firstn 2 d)
    end.
  Proof.
    intros s Hs. open_talk Hs. unfold appLogon, transmit. rewrite bind_get. destruct (logon_deque (r_logon (rxs s))) as [|d q]; [reflexivity|].
    change (1 =? 1) with true. cbn iota. unfold bind, get, modify, call. cbn [rxs app pending].
    cbn [r_bidi set_ch1 ch1 set_r_bidi upd_ch1]. inversion Hlg as [|? ? [Hd _] _]; subst.
    rewrite overwrite_whole by (rewrite firstn_length; lia). reflexivity.
  Qed.
  Lemma appLogon2_run : forall s, talk (rxs s) -> appLogon E 2 s = match logon_deque (r_logon (rxs s)) with
    | [] => Ok (tt, s, [])
    | d :: q => transmit s (set_logon_deque q (set_ch2 (skipn 2 d) (rxs s))) (skipn 2 d)
    end.
  Proof.
    intros s Hs. open_talk Hs. unfold appLogon, transmit. rewrite bind_get. destruct (logon_deque (r_logon (rxs s))) as [|d q]; [reflexivity|].
    change (2 =? 1) with false. cbn iota. unfold bind, get, modify, call. cbn [rxs app pending].
    cbn [r_bidi set_ch2 ch2 set_r_bidi upd_ch2]. inversion Hlg as [|? ? [Hd _] _]; subst.
    rewrite overwrite_whole by (rewrite skipn_length; lia). reflexivity.
  Qed.

  Lemma dyn_loop_run : forall dq buf, Forall (shaped 3) dq -> length buf = 6%nat -> dq <> [] -> exists buf', length buf' = 6%nat /\
    dyn_loop dq buf 0 = Ok (skipn 2 dq, buf', length (concat (firstn 2 dq))) /\ firstn (length (concat (firstn 2 dq))) buf' = concat (firstn 2 dq).
  Proof.
    intros dq buf Hd Hl Hn. destruct dq as [|a dq]; [contradiction|]. inversion Hd as [|? ? [Ha _] Hd']; subst.
    cbn [dyn_loop]. rewrite Nat.add_0_l, Ha, Hl. change (3 <=? 6)%nat with true. cbn iota.
    destruct dq as [|b dq].
    { exists (overwrite buf 0 a). cbn [skipn firstn concat]. rewrite app_nil_r, Ha. split; [rewrite overwrite_length; lia|]. split; [reflexivity|].
      rewrite <- Ha at 1. apply overwrite_front. }
    inversion Hd' as [|? ? [Hb _] Hd'']; subst. rewrite Hb. change (3 <=? 6 - 3)%nat with true. cbn iota.
    assert (length (overwrite buf 0 a) = 6%nat) as Hl1 by (rewrite overwrite_length; lia).
    cbn [dyn_loop]. rewrite Hb, Hl1. change (3 + 3 <=? 6)%nat with true. cbn iota. exists (a ++ b).
    assert (overwrite (overwrite buf 0 a) 3 b = a ++ b) as ->.
    { unfold overwrite at 1. rewrite Hb. change (3 + 3)%nat with 6%nat. rewrite skipn_all2 by lia. rewrite app_nil_r.
      rewrite <- Ha at 1. rewrite overwrite_front. reflexivity. }
    cbn [skipn firstn concat]. rewrite app_nil_r. split; [rewrite app_length; lia|]. split.
    - destruct dq as [|c dq]; [rewrite app_length, Ha, Hb; reflexivity|].
      inversion Hd'' as [|? ? [Hc _] _]; subst. rewrite Hc, app_length, Ha, Hb. reflexivity.
    - apply firstn_all.
  Qed.

  Lemma appDyn_run : forall s, talk (rxs s) -> exists buf, length buf = 6%nat /\ appDyn E s = match dyn_deque (r_bidi (rxs s)) with
    | [] => Ok (tt, s, [])
    | _ => transmit s (set_ch2 buf (set_dyn_deque (skipn 2 (dyn_deque (r_bidi (rxs s)))) (rxs s))) (concat (firstn 2 (dyn_deque (r_bidi (rxs s)))))
    end.
  Proof.
    intros s Hs. open_talk Hs. unfold appDyn, transmit. rewrite bind_get. destruct (dyn_deque (r_bidi (rxs s))) as [|d q] eqn:Eq; [exists (ch2 (r_bidi (rxs s))); auto|].
    destruct (dyn_loop_run (d :: q) (ch2 (r_bidi (rxs s))) Hdy Hc2) as (buf & Hb & -> & Hf); [discriminate|].
    exists buf. split; [exact Hb|]. rewrite ExecProofs.bind_lift. unfold bind, modify, call. cbn [rxs app pending]. rewrite Hf. reflexivity.
  Qed.
End Talk.
