(** Ranges of the fields in every state *)
From Verif Require Import Prelude Address Instruction Checksum Datagram Speed Packets Backoff RxState Rx ZBits RxLogic RxInv
  SpecCodec SpecRx RxBitProofs SpecConf ConfProofs.

Lemma decode_range : forall bs a, Forall byte bs -> decode_address bs = Ok a -> 0 <= aval a < 16384.
Proof.
  intros [|b r] a Hb H; [discriminate|]. inversion Hb as [|? ? Hb1 Hr]; subst. unfold byte in Hb1.
  cbn [decode_address] in H.
  repeat match type of H with (if ?c then _ else _) = _ => destruct c eqn:? end;
    try (inversion H; subst; cbn [aval]; lia).
  destruct r as [|c r]; [discriminate|]. apply Ok_inj in H. subst a. cbn [aval].
  rewrite land_3FFF. unfold u16. lia.
Qed.
Lemma decode_not_reversed : forall bs a, decode_address bs = Ok a -> arev a = false.
Proof.
  intros [|b r] a H; [discriminate|]. cbn [decode_address] in H.
  repeat match type of H with (if ?c then _ else _) = _ => destruct c eqn:? end;
    try (inversion H; subst; reflexivity).
  destruct r; [discriminate|inversion H; reflexivity].
Qed.

Definition pausing (b : backoff) : Prop := 0 <= bo_range b <= 3 /\ 0 <= bo_count b <= 63.
Definition sane (r : rx) : Prop :=
  Forall byte (f_packet (r_fsm r)) /\ length (did (r_conf r)) = 4%nat /\ Forall byte (did (r_conf r)) /\
  0 <= aval (primary (r_addrs r)) < 16384 /\ 0 <= aval (consist (r_addrs r)) < 16384 /\
  0 <= aval (logon (r_addrs r)) < 16384 /\
  0 <= cid_front (r_logon r) < 65536 /\ byte (sid_front (r_logon r)) /\
  0 <= cid_back (r_logon r) < 65536 /\ byte (sid_back (r_logon r)) /\
  pausing (logon_backoff (r_logon r)) /\ pausing (tos_backoff (r_time r)).

Lemma backoff_pausing : forall b n, pausing b -> pausing (snd (backoff_test b n)).
Proof.
  intros [r c] n [Hr Hc]. unfold backoff_test, pausing. cbn [bo_range bo_count] in *.
  destruct (Z.eqb_spec c 0); cbn [snd bo_range bo_count]; [|lia]. split; [lia|].
  assert (r = 0 \/ r = 1 \/ r = 2 \/ r = 3) as Hrr by lia.
  assert (0 < Z.shiftl 8 r <= 64) by (destruct Hrr as [->|[->|[->| ->]]]; cbn; lia).
  pose proof (Z.mod_pos_bound n (Z.shiftl 8 r)). unfold u8. rewrite Z.mod_small; lia.
Qed.
Lemma now_pausing : forall b, pausing (backoff_now b).
Proof. intros b. unfold pausing, backoff_now. cbn. lia. Qed.

Ltac open_sane H := let H1 := fresh "Hpk" in let H2 := fresh "Hdl" in let H3 := fresh "Hdb" in let H4 := fresh "Hpr" in
  let H5 := fresh "Hco" in let H6 := fresh "Hlo" in let H7 := fresh "Hcf" in let H8 := fresh "Hsf" in let H9 := fresh "Hcb" in
  let H10 := fresh "Hsb" in let H11 := fresh "Hlb" in let H12 := fresh "Htb" in
  destruct H as (H1 & H2 & H3 & H4 & H5 & H6 & H7 & H8 & H9 & H10 & H11 & H12).
Ltac close_sane := refine (conj _ (conj _ (conj _ (conj _ (conj _ (conj _ (conj _ (conj _ (conj _ (conj _ (conj _ _))))))))))); try assumption.

Section Sane.
  Context {I : Type} (E : Env I).
  Implicit Types s : st I.

  Lemma sane_init : holds sane (init E).
  Proof.
    intros s [] s' es H HP. apply init_configures in H. destruct H as (c & Hb & _ & ((Hp & Hc & _) & Hd & Hcid & Hsid) & Hu).
    unfold unconfigured in Hu. open_sane HP. assert (Hcv : forall n, byte (cv c n)) by (intros; apply Hb).
    pose proof (Hcv 65297) as B1. pose proof (Hcv 65298) as B2. pose proof (Hcv 65299) as B3.
    assert (r_fsm (rxs s') = r_fsm (rxs s)) as Ef by congruence.
    assert (logon (r_addrs (rxs s')) = logon (r_addrs (rxs s))) as El by congruence.
    assert (r_time (rxs s') = r_time (rxs s)) as Et by congruence.
    assert (upd_cid_front 0 (upd_sid_front 0 (r_logon (rxs s'))) = upd_cid_front 0 (upd_sid_front 0 (r_logon (rxs s)))) as Elg by congruence.
    unfold upd_cid_front, upd_sid_front in Elg. cbn in Elg. injection Elg as _ _ _ G1 G2 G3 _.
    unfold sane. rewrite Ef, El, Et, G1, G2, G3, Hp, Hc, Hd, Hcid, Hsid. unfold byte in *. close_sane.
    - reflexivity.
    - cbn [did switches]. repeat (apply Forall_cons; [apply Hcv|]). apply Forall_nil.
    - unfold own_address. cbn [aval]. destruct (bit_of (cv c 29) 5); [|cbn [aval]; pose proof (Hcv 1); unfold byte in *; lia].
      assert (F : Forall byte [cv c 17; cv c 18]) by (repeat (apply Forall_cons; [apply Hcv|]); apply Forall_nil).
      apply (decode_range [cv c 17; cv c 18]); [exact F|]. rewrite decode_address_of by (cbn [length]; auto). reflexivity.
    - unfold consist_address. cbn [aval].
      pose proof (Z.mod_pos_bound (cv c 20) 128). pose proof (Z.mod_pos_bound (cv c 19) 128). lia.
    - lia.
  Qed.

  Ltac sane1 :=
    lazymatch goal with
    | |- holds sane (init _) => apply sane_init
    | |- _ => holds1
    end.
  Ltac sane_tac := repeat sane1.

  Lemma sane_reset : holds sane (@reset I). Proof. sane_tac. Qed.
  Lemma sane_run_cb : forall c v, holds sane (run_cb E c v). Proof. intros. sane_tac. Qed.
  Lemma sane_test_logon : holds sane (test_backoff E (fun r => logon_backoff (r_logon r)) set_logon_backoff).
  Proof.
    unfold test_backoff. apply holds_get_bind. intros r s Hr Hs b s' es H.
    apply bind_inv in H. destruct H as (n & s1 & e1 & e2 & H1 & H2 & _).
    assert (rxs s1 = r) as Hr1.
    { destruct (bo_count (logon_backoff (r_logon r)) =? 0); [|inversion H1; subst; reflexivity].
      rewrite <- Hr. exact (keeps_rand E _ (fun r => r) _ _ _ _ H1). }
    destruct (backoff_test (logon_backoff (r_logon r)) n) as [q b'] eqn:Eb.
    apply bind_inv in H2. destruct H2 as (u & s2 & e3 & e4 & H3 & H4 & _). inversion H3; subst s2. inversion H4; subst s' b.
    cbn [rxs]. rewrite Hr1. open_sane Hs. unfold sane. cbn. close_sane.
    pose proof (backoff_pausing _ n Hlb) as K. rewrite Eb in K. exact K.
  Qed.
  Lemma sane_test_tos : holds sane (test_backoff E (fun r => tos_backoff (r_time r)) set_tos_backoff).
  Proof.
    unfold test_backoff. apply holds_get_bind. intros r s Hr Hs b s' es H.
    apply bind_inv in H. destruct H as (n & s1 & e1 & e2 & H1 & H2 & _).
    assert (rxs s1 = r) as Hr1.
    { destruct (bo_count (tos_backoff (r_time r)) =? 0); [|inversion H1; subst; reflexivity].
      rewrite <- Hr. exact (keeps_rand E _ (fun r => r) _ _ _ _ H1). }
    destruct (backoff_test (tos_backoff (r_time r)) n) as [q b'] eqn:Eb.
    apply bind_inv in H2. destruct H2 as (u & s2 & e3 & e4 & H3 & H4 & _). inversion H3; subst s2. inversion H4; subst s' b.
    cbn [rxs]. rewrite Hr1. open_sane Hs. unfold sane. cbn. close_sane.
    pose proof (backoff_pausing _ n Htb) as K. rewrite Eb in K. exact K.
  Qed.
  Ltac sane2 :=
    lazymatch goal with
    | |- holds sane (init _) => apply sane_init
    | |- holds sane (test_backoff _ (fun r => logon_backoff (r_logon r)) _) => apply sane_test_logon
    | |- holds sane (test_backoff _ (fun r => tos_backoff (r_time r)) _) => apply sane_test_tos
    | |- _ => holds1
    end.

  Lemma sane_adr : holds sane (@adr I). Proof. sane_tac. Qed.
  Lemma sane_updateQos : holds sane (@updateQos I). Proof. sane_tac. Qed.
  Lemma sane_updateTimepoints : holds sane (updateTimepoints E).
  Proof.
    unfold updateTimepoints. repeat sane2.
    apply holds_modify. intros r Hr. open_sane Hr. unfold sane. cbn. close_sane. apply now_pausing.
  Qed.
  Lemma sane_logonStore : holds sane (logonStore E).
  Proof.
    unfold logonStore. apply holds_get_bind. intros r s Hr Hs b s' es H.
    destruct (negb (logon_store (r_logon r))); [inversion H; subst; exact Hs|]. rewrite <- Hr in Hs.
    pose proof Hs as Hs0. open_sane Hs0. rewrite Hr in Hcb, Hsb.
    revert s b s' es H Hs Hr Hpk Hdl Hdb Hpr Hco Hlo Hcf Hsf Hlb Htb.
    assert (K : forall m : M (I := I) unit, holds sane m -> forall s b s' es, m s = Ok (b, s', es) -> sane (rxs s) ->
      rxs s = r -> Forall byte (f_packet (r_fsm (rxs s))) -> length (did (r_conf (rxs s))) = 4%nat ->
      Forall byte (did (r_conf (rxs s))) -> 0 <= aval (primary (r_addrs (rxs s))) < 16384 ->
      0 <= aval (consist (r_addrs (rxs s))) < 16384 -> 0 <= aval (logon (r_addrs (rxs s))) < 16384 ->
      0 <= cid_front (r_logon (rxs s)) < 65536 -> byte (sid_front (r_logon (rxs s))) ->
      pausing (logon_backoff (r_logon (rxs s))) -> pausing (tos_backoff (r_time (rxs s))) -> sane (rxs s'))
      by (intros; eauto).
    apply K. clear K. repeat sane2.
    - apply holds_modify. intros r0 Hr0. open_sane Hr0. unfold sane. cbn. close_sane.
    - apply holds_modify. intros r0 Hr0. open_sane Hr0. unfold sane. cbn. close_sane.
  Qed.

  Lemma sane_executeCommand : holds sane (executeCommand E).
  Proof. unfold executeCommand. repeat sane2. Qed.
  Lemma sane_execute : holds sane (execute E).
  Proof.
    unfold execute. apply holds_bind; [apply holds_get|intro r]. destruct (_ || _); [apply holds_ret|].
    apply holds_bind; [apply sane_adr|intro]. apply holds_bind; [apply sane_logonStore|intro].
    apply holds_bind; [apply sane_updateQos|intro]. apply holds_bind; [apply sane_updateTimepoints|intro].
    apply holds_bind; [apply sane_executeCommand|intro]. sane_tac.
  Qed.

  Lemma sane_push_logon : forall d, holds sane (@push_logon I d). Proof. intros. sane_tac. Qed.
  Lemma sane_select : forall d, holds sane (@logonSelect I d). Proof. intros. sane_tac. Qed.
  Lemma sane_assign : forall d a ow, 0 <= aval a < 16384 -> holds sane (@logonAssign I d a ow).
  Proof.
    intros d a ow Ha. unfold logonAssign. repeat sane2;
      (apply holds_modify; intros r Hr; open_sane Hr; unfold sane; cbn; close_sane; lia).
  Qed.
  Lemma readCv_byte : forall a s v s' es, readCv E a s = Ok (v, s', es) -> byte v.
  Proof.
    intros a s v s' es H. unfold readCv in H. destruct (e_readCv E (app s) a). inversion H; subst. apply u8_byte.
  Qed.
  Lemma holds_readCv_bind : forall P a B (k : Z -> M (I := I) B),
    (forall v, byte v -> holds P (k v)) -> holds P (bind (readCv E a) k).
  Proof.
    intros P a B k Hk s b s' es H Hp. apply bind_inv in H. destruct H as (v & s1 & e1 & e2 & H1 & H2 & _).
    exact (Hk v (readCv_byte _ _ _ _ _ H1) _ _ _ _ H2 (holds_readCv E P a _ _ _ _ H1 Hp)).
  Qed.
  Lemma sane_enable : forall g cid sid, 0 <= cid < 65536 -> byte sid -> holds sane (logonEnable E g cid sid).
  Proof.
    intros g cid sid Hc Hs. unfold logonEnable. apply holds_bind; [apply holds_get|intro r].
    destruct (_ || _); [apply holds_ret|].
    apply holds_bind; [apply holds_modify; intros r0 Hr0; open_sane Hr0; unfold sane; cbn; close_sane|intros _].
    apply holds_bind; [apply holds_modify; intros r0 Hr0; open_sane Hr0; unfold sane; cbn; close_sane|intros _].
    apply holds_bind; [apply holds_get|intro r1].
    apply holds_bind.
    { destruct (_ =? _); [|apply holds_ret]. cbv zeta. do 3 (apply holds_bind; [sane_tac|intros _]).
      destruct (_ <=? 4).
      - apply holds_readCv_bind. intros v Hv. apply holds_readCv_bind. intros w Hw.
        apply holds_lift_bind. intros a Ha. apply holds_bind; [|intros; apply holds_ret].
        apply decode_range in Ha; [|repeat (apply Forall_cons; [assumption|]); apply Forall_nil].
        apply holds_modify. intros r0 Hr0; open_sane Hr0; unfold sane; cbn; close_sane.
      - apply holds_bind; [|intros; apply holds_ret].
        apply holds_modify. intros r0 Hr0; open_sane Hr0; unfold sane; cbn; close_sane. lia. }
    intros sk. repeat sane2;
      (apply holds_modify; intros r0 Hr0; open_sane Hr0; unfold sane; cbn; close_sane; apply now_pausing).
  Qed.

  Lemma Forall_skipn_byte : forall n bs, Forall byte bs -> Forall byte (skipn n bs).
  Proof. induction n as [|n IH]; intros [|b bs] H; cbn [skipn]; auto. inversion H; auto. Qed.
  Lemma Forall_nth : forall bs i b, Forall byte bs -> nth_error bs i = Some b -> byte b.
  Proof. intros bs i b H Hn. rewrite Forall_forall in H. apply H. exact (nth_error_In _ _ Hn). Qed.
  Lemma holds_at_bind : forall P bs i B (k : Z -> M (I := I) B), Forall byte bs ->
    (forall v, byte v -> holds P (k v)) -> holds P (bind (at_ bs i) k).
  Proof.
    intros P bs i B k Hb Hk s b s' es H Hp. apply bind_inv in H. destruct H as (v & s1 & e1 & e2 & H1 & H2 & _).
    unfold at_ in H1. destruct (nth_error bs i) eqn:En; [|discriminate]. inversion H1; subst.
    exact (Hk v (Forall_nth _ _ _ Hb En) _ _ _ _ H2 Hp).
  Qed.
  Lemma sane_logon : forall a bytes, Forall byte bytes -> holds sane (executeAutomaticLogon E a bytes).
  Proof.
    intros a bytes Hb. unfold executeAutomaticLogon. destruct (negb _); [apply holds_ret|].
    apply holds_at_bind; [exact Hb|]. intros b0 Hb0. apply holds_bind; [|intros; apply holds_ret].
    destruct (_ =? 0xD0).
    { apply holds_bind; [apply holds_lift|intro; apply sane_select]. }
    destruct (_ =? 0xE0).
    { apply holds_bind; [apply holds_lift|intro]. apply holds_at_bind; [exact Hb|]. intros b6 Hb6. cbv zeta.
      destruct (_ <? 0x28); [|destruct (_ <? 0x38); [apply holds_ret|destruct (_ <? 0x39); [|apply holds_ret]]];
        apply holds_lift_bind; intros x Hx; apply decode_range in Hx; try (apply Forall_skipn_byte; exact Hb);
        apply sane_assign; exact Hx. }
    destruct (_ =? 0xF0); [|apply holds_ret].
    apply holds_lift_bind. intros cid Hcid. apply holds_at_bind; [exact Hb|]. intros sid Hsid.
    apply sane_enable; [|exact Hsid]. unfold data2uint16 in Hcid.
    destruct (skipn 1 bytes) as [|x [|y r]]; try discriminate. inversion Hcid. unfold u16. lia.
  Qed.
  Lemma sane_handler : holds sane (executeHandlerMode E).
  Proof.
    unfold executeHandlerMode. apply holds_get_bind. intros r s Hr Hs b s' es H.
    destruct (negb _); [inversion H; subst; exact Hs|]. pose proof Hs as H0. open_sane H0. subst r.
    revert H Hs. clear Hdl Hdb Hpr Hco Hlo Hcf Hsf Hcb Hsb Hlb Htb. revert s' es. revert b.
    set (p := f_packet (r_fsm (rxs s))) in *. set (a := received (r_addrs (rxs s))). clearbody p a.
    intros b s' es H Hs. refine (_ s b s' es H Hs). apply holds_bind; [destruct (_ <=? _)%nat; sane_tac|]. intro ok.
    apply holds_bind; [|intros; apply holds_ret]. destruct ok; [|apply holds_ret].
    apply holds_bind; [|intros; apply holds_ret]. apply sane_logon. apply Forall_skipn_byte. exact Hpk.
  Qed.
  Lemma sane_receive_end : holds sane (receive_packet_end E).
  Proof.
    unfold receive_packet_end. apply holds_bind; [apply holds_get|intro r]. apply holds_bind; [|intros; apply sane_reset].
    destruct (_ && _).
    - apply holds_bind; [sane_tac|intros _]. apply holds_bind; [sane_tac|intros _].
      apply holds_bind; [apply holds_lift|intro]. apply holds_bind; [sane_tac|intros _].
      apply holds_bind; [apply sane_handler|intro]. sane_tac.
    - apply holds_bind; [sane_tac|intros _].
      apply holds_modify. intros r0 Hr0; open_sane Hr0; unfold sane; cbn; close_sane. apply Forall_nil.
  Qed.
  Lemma sane_receive_bit : forall bit, holds sane (receive_bit E bit).
  Proof.
    intros bit. unfold receive_bit. apply holds_get_bind. intros r s Hr Hs b s' es H. cbv zeta in H. rewrite <- Hr in Hs.
    destruct (_ =? _)%nat; [exact (sane_reset _ _ _ _ H Hs)|].
    assert (K : forall m : M (I := I) unit, holds sane m -> m s = Ok (b, s', es) -> sane (rxs s'))
      by (intros m Hm Hx; exact (Hm _ _ _ _ Hx Hs)).
    assert (Hpk : Forall byte (f_packet (r_fsm r))) by (rewrite <- Hr; open_sane Hs; assumption).
    revert H. apply K. clear K Hs. destruct (f_state (r_fsm r)).
    - sane_tac.
    - apply holds_bind; [|intros _; sane_tac].
      apply holds_modify. intros r0 Hr0; open_sane Hr0; unfold sane; cbn; close_sane. apply Forall_nil.
    - cbv zeta. do 2 (apply holds_bind; [sane_tac|intros _]). destruct (_ <? 8)%nat; [apply holds_ret|].
      destruct (_ <? _)%nat; [|apply holds_fail]. apply holds_bind; [|intros _; sane_tac].
      apply holds_modify. intros r0 Hr0; open_sane Hr0; unfold sane; cbn -[Z.lor u8]; close_sane.
      apply Forall_app. split; [exact Hpk|]. apply Forall_cons; [apply u8_byte|apply Forall_nil].
    - destruct (negb bit); [sane_tac|apply sane_receive_end].
  Qed.
  Lemma sane_receive : forall t, holds sane (receive E t).
  Proof.
    intros t. unfold receive. apply holds_bind; [sane_tac|intros _].
    destruct (time2bit t); [|apply holds_ret]. apply holds_bind; [apply holds_get|intro r].
    destruct (f_state _); [apply sane_receive_bit|apply sane_receive_bit| |];
      (cbv zeta; apply holds_bind; [sane_tac|intros _]; destruct (negb _); [apply holds_ret|apply sane_receive_bit]).
  Qed.
  Lemma sane_dyn_all : forall ds, holds sane (@dyn_all I ds).
  Proof. induction ds as [|a ds IH]; [apply holds_ret|]. apply holds_bind; [sane_tac|intro; exact IH]. Qed.
  Lemma sane_step : forall o, holds sane (step E o).
  Proof.
    intros [| | |t| |ds| | |i v]; cbn [step].
    - apply holds_bind; [apply sane_init|intros; apply holds_ret].
    - apply holds_bind; [sane_tac|intros; apply holds_ret].
    - apply holds_bind; [sane_tac|intros; apply holds_ret].
    - apply holds_bind; [apply sane_receive|intros; apply holds_ret].
    - apply sane_execute.
    - apply holds_bind; [|intros; apply holds_ret]. unfold datagram. apply holds_bind; [apply holds_get|intro].
      apply holds_bind; [sane_tac|intro]. apply holds_bind; [apply holds_get|intro].
      destruct (block_dyn _); [apply holds_ret|apply sane_dyn_all].
    - apply holds_bind; [sane_tac|intros; apply holds_ret].
    - apply holds_bind; [sane_tac|intros; apply holds_ret].
    - intros s a s' es H. destruct (nth_error (pending s) i) as [c|]; [|inversion H; auto].
      apply bind_inv in H. destruct H as (u & s1 & e1 & e2 & H1 & H2 & _). inversion H2; subst.
      exact (sane_run_cb _ _ _ _ _ _ H1).
  Qed.

  (** From an invariant of single calls to reachable states *)
  Lemma holds_run : forall P, (forall o, holds P (step E o)) -> forall os, holds P (run E os).
  Proof.
    intros P H. induction os as [|o os IH]; [apply holds_ret|]. apply holds_bind; [apply H|intro; exact IH].
  Qed.
  Lemma sane_st0 : forall i : I, sane (rxs (st0 i)).
  Proof.
    intros i. unfold sane, st0, pausing, byte. cbn.
    repeat first [apply conj | apply Forall_nil | apply Forall_cons; [unfold byte; lia|] | lia]; reflexivity.
  Qed.
  Lemma sane_run : forall i os s es, run E os (st0 i) = Ok (tt, s, es) -> sane (rxs s).
  Proof. intros i os s es H. exact (holds_run sane sane_step os _ _ _ _ H (sane_st0 i)). Qed.
End Sane.
