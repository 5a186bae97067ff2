(** The answer that waits for channel 2: all calls *)
From Verif Require Import Prelude Address Instruction Datagram ZBits SpecCodec RxState Rx CodecProofs CodecProofs2 RxLogic SpecRx RxBitProofs
  SpecExec ExecProofs SpecConf ConfProofs ConfProofs2 SpecCv CvProofs CvProofs2 CvProofs3 CvProofs4 CvProofs5 CvProofs7 SpecLogon LogonProofs2 LogonProofs4
  SpecBidi BidiProofs2 BidiProofs3 SpecStation SpecLayout LayoutProofs LayoutProofs2 LayoutProofs3 LayoutProofs4 SpecDialog DialogProofs DialogProofs2.
Local Ltac Zify.zify_post_hook ::= Z.div_mod_to_equations.

Lemma converse_snoc : forall ew os o l h x, converse ew (os ++ [o]) l h x = turn ew o (listen_all os l) (last_heard os l h) (converse ew os l h x).
Proof. intros ew. induction os as [|a os IH]; intros o l h x; [reflexivity|]. cbn [List.app converse]. rewrite IH. reflexivity. Qed.

Lemma fst_turn : forall ew o l h x, fst (turn ew o l h x) =
  fst (obey_all ew (match o with OExecute => if l_fresh l then [] else firstn 1 (l_queue l) | _ => [] end) (fst x)).
Proof.
  intros ew o l h [v w]. cbn [fst]. destruct o; try reflexivity; cbn [turn].
  - destruct (l_fresh l); [reflexivity|]. destruct (l_queue l) as [|p q]; [reflexivity|]. cbn [firstn obey_all fst].
    destruct (obey ew p v). reflexivity.
  - cbn [obey_all fst]. destruct h as [p|]; [|reflexivity]. destruct (own_cv_packet (v_cvs v) p); [|reflexivity]. destruct (speaks p v w); reflexivity.
Qed.
Lemma fst_converse : forall ew os l h x, fst (converse ew os l h x) = fst (obey_all ew (SpecRx.taken os l) (fst x)).
Proof.
  intros ew. induction os as [|o os IH]; intros l h x; [reflexivity|]. cbn [converse SpecRx.taken]. rewrite IH, fst_turn.
  rewrite obey_app. reflexivity.
Qed.

Section Run.
  Context {I : Type} (E : Env I) (m : I -> Z -> Z) (able : access -> Prop) (Hk : keeps_cvs able E m).
  Implicit Types s : st I.
  Let Hm : cv_memory E m := proj1 Hk.
  Notation Sim := (Sim m).

  (** ** The last packet *)
  Lemma fresh_heard : forall i os s es, run E os (st0 i) = Ok (tt, s, es) -> cutout s -> last_heard os listener0 None = Some (last_bytes s).
  Proof.
    intros i os. induction os as [|o os IH] using rev_ind; intros s es H Hc; [inversion H; subst; discriminate Hc|].
    apply (run_snoc E) in H. destruct H as (s1 & e1 & b & e2 & Hrun & H). specialize (IH _ _ Hrun). rewrite last_heard_snoc.
    pose proof (run_refines E _ _ _ _ _ (Rl0 i) Hrun) as HR.
    assert (Keep : ear (rxs s) = ear (rxs s1) -> last_heard os listener0 None = Some (last_bytes s)).
    { intros K. unfold ear in K. injection K as K1 K2. unfold last_bytes, cutout in *. rewrite K1 in *. apply IH. exact Hc. }
    destruct o; cbn [step] in H;
      try (lazymatch type of H with execute _ _ = _ => fail | _ => idtac end; apply bind_inv in H; destruct H as (u & s2 & e3 & e4 & H & H2 & _); inversion H2; subst; clear H2).
    - apply Keep. assert (keeps ear (init E)) as K by keeps_tac. exact (K _ _ _ _ H).
    - apply Keep. assert (keeps ear (@enable I)) as K by keeps_tac. exact (K _ _ _ _ H).
    - cbn [completed rejected]. unfold disable in H. rewrite bind_get in H. destruct (negb _); [inversion H; subst; exact (IH Hc)|].
      unfold bind, modify, reset in H. inversion H; subst. exact (IH Hc).
    - destruct (completed (OReceive time) (listen_all os listener0)) as [p|] eqn:Ec.
      + destruct (completed_took E _ _ _ _ _ _ _ _ _ Hrun Ec H) as (_ & -> & _). reflexivity.
      + destruct (receive_nothing E _ s1 time HR Ec) as [Hr|(f & c & ad & Hr & Hp & _)]; [congruence|]. rewrite Hr in H. inversion H; subst s.
        unfold cutout in Hc. cbn [rxs r_fsm] in Hc. congruence.
    - exact (Keep (ear_execute E _ _ _ _ H)).
    - exact (Keep (ear_datagram _ _ _ _ _ H)).
    - exact (Keep (ear_biDi1 E _ _ _ _ H)).
    - exact (Keep (ear_biDi2 E _ _ _ _ H)).
    - cbn [completed rejected]. destruct (nth_error (pending s1) i0) as [c|]; [|inversion H; subst; exact (IH Hc)]. apply Keep.
      assert (keeps ear (bind (run_cb E c v) (fun _ => ret false))) as K by keeps_tac. exact (K _ _ _ _ H).
  Qed.

  (** ** Channel 2 *)
  Lemma own_cv_spec : forall v w s, reached E s -> Sim v s -> W w s -> cutout s ->
    own_cv_packet (v_cvs v) (last_bytes s) = true <-> own_packet s /\ for_cvs s.
  Proof.
    intros v w s Hr HS [HW _] Hc. destruct (heard_reached E s Hr Hc) as (Hb & Hl & Ha).
    assert (answering_as s = own_address (v_cvs v)) as Hown.
    { unfold answering_as, is_assigned. rewrite HW. destruct HS as (_ & (H & _) & _). exact H. }
    unfold own_packet, for_cvs, own_cv_packet. rewrite Hown, Ha. set (p := last_bytes s) in *. clearbody p.
    destruct p as [|b p]; [cbn in Hl; lia|]. inversion Hb as [|? ? Hb0 Hbp]; subst. unfold byte in Hb0.
    assert (K : forall n c (x : Z), (atyp c = ATShort \/ atyp c = ATLong) -> x = n ->
      (has_number (own_address (v_cvs v)) (aval c) && (0xE0 <=? x) && (x <? 0xF0) = true <->
       (In (atyp c) [ATShort; ATLong] /\ same_address c (own_address (v_cvs v))) /\ 0xE0 <= n < 0xF0)).
    { intros n c x Hc2 ->. rewrite !andb_true_iff, Z.leb_le, Z.ltb_lt. unfold has_number, same_address.
      assert (In (atyp c) [ATShort; ATLong]) as Hin by (cbn [In]; intuition).
      destruct (atyp (own_address (v_cvs v))); rewrite ?Z.eqb_eq; cbn [In]; destruct Hc2 as [Hc2|Hc2]; rewrite Hc2;
        intuition (try discriminate; try congruence). }
    unfold body_of. cbn [hd]. rewrite nth_skipn.
    assert (Hd : atyp (address_of (b :: p)) = ATShort /\ 0 < b < 128 \/ atyp (address_of (b :: p)) = ATLong /\ 192 <= b < 232 \/
                 ~ In (atyp (address_of (b :: p))) [ATShort; ATLong]).
    { unfold address_of, first_byte_class. destruct (Z.eqb_spec b 0); [right; right; cbn; intuition discriminate|].
      destruct (Z.ltb_spec b 128); [left; split; [reflexivity|lia]|].
      destruct (Z.ltb_spec b 192); [right; right; cbn; intuition discriminate|].
      destruct (Z.ltb_spec b 232); [right; left; split; [reflexivity|lia]|].
      right. right. destruct (Z.ltb_spec b 253); [cbn; intuition discriminate|].
      assert (b = 253 \/ b = 254 \/ b = 255) as [->|[->| ->]] by lia; cbn; intuition discriminate. }
    destruct Hd as [[Hd Hb1]|[[Hd Hb1]|Hd]].
    - replace ((128 <=? b) && (b <=? 252)) with false by lia.
      pose proof (K (hd 0 (skipn 1 (b :: p))) (address_of (b :: p)) _ (or_introl Hd) eq_refl) as K1. rewrite Hd in K1 |- *. exact K1.
    - replace ((128 <=? b) && (b <=? 252)) with true by lia.
      pose proof (K (hd 0 (skipn 2 (b :: p))) (address_of (b :: p)) _ (or_intror Hd) eq_refl) as K1. rewrite Hd in K1 |- *. exact K1.
    - split; [|intros [[X _] _]; contradiction].
      destruct (atyp (address_of (b :: p))); try discriminate; cbn [In] in Hd; intuition.
  Qed.

  Lemma spoken : forall v w s, reached E s -> Sim v s -> W w s -> cutout s -> exists s' ds,
    biDiChannel2 E s = Ok (tt, s', map ETransmitBiDi ds) /\
    (own_cv_packet (v_cvs v) (last_bytes s) = true -> transmitted (speaks (last_bytes s) v w) ds /\
       W (match speaks (last_bytes s) v w with Value _ => None | _ => w end) s') /\
    (own_cv_packet (v_cvs v) (last_bytes s) = false -> W w s').
  Proof.
    intros v w s Hr HS HW Hc. destruct (biDi2_cutout E s Hr Hc) as (s' & ds & H & Hst & Ha). exists s', ds. split; [exact H|].
    assert (keeps (fun r => logon_assigned (r_logon r)) (biDiChannel2 E)) as K by keeps_tac. pose proof (K _ _ _ _ H) as Kl. clear K. cbn beta in Kl.
    pose proof (own_cv_spec v w s Hr HS HW Hc) as Ho.
    assert (Hsame : cv_waiting s' = cv_waiting s -> W w s').
    { intros X. apply (W_kept w s); [|exact HW]. unfold wait. unfold cv_waiting in X. congruence. }
    pose proof (sim_channel m v s HS) as Hch.
    assert (last_cv_packet s = v_last v) as Hlast by (destruct HS as (_ & _ & HS & _); unfold regs in HS; unfold last_cv_packet; congruence).
    unfold waiting in Ha. split.
    - intros Ht. apply Ho in Ht. destruct Ht as [Hown Hcvs]. destruct Hown as [Hty Hsa].
      unfold speaks. rewrite <- Hch, <- Hlast. change (ch2_data_enabled (r_conf (rxs s))) with (channel2_on s).
      inversion Ha; subst.
      + exfalso. match goal with X : atyp _ = ATBroadcast |- _ => rewrite X in Hty end. cbn [In] in Hty. intuition discriminate.
      + match goal with X : channel2_on s = false |- _ => rewrite X end. cbn [negb]. split; [reflexivity|]. apply Hsame. unfold waiting in *. congruence.
      + match goal with X : channel2_on s = true |- _ => rewrite X end. cbn [negb].
        destruct (list_eq_dec Z.eq_dec (last_bytes s) (last_cv_packet s)); [contradiction|]. split; [reflexivity|]. apply Hsame. unfold waiting in *. congruence.
      + match goal with X : channel2_on s = true |- _ => rewrite X end. cbn [negb].
        destruct (list_eq_dec Z.eq_dec (last_bytes s) (last_cv_packet s)); [|contradiction].
        match goal with X : cv_waiting s' = _ |- _ => rename X into Hcw | X : _ = cv_waiting s' |- _ => symmetry in X; rename X into Hcw end.
        destruct HW as [HW1 HW2]. unfold cv_waiting in *. destruct w as [r|].
        * destruct HW2 as (Hby & d & Hd & Hcar). rewrite Hd in *. cbn [firstn tl] in *. split; [exists d; auto|]. split; [congruence|exact Hcw].
        * rewrite HW2 in *. cbn [firstn tl] in *. split; [reflexivity|]. split; [congruence|exact Hcw].
      + exfalso. match goal with X : data_turn s |- _ => destruct X as [[_ X]|(_ & X & _)]; contradiction end.
      + exfalso. match goal with X : atyp _ = ATLogon |- _ => rewrite X in Hty end. cbn [In] in Hty. intuition discriminate.
      + exfalso. match goal with X : ~ own_packet s |- _ => apply X; split; assumption end.
    - intros Hf. apply Hsame. inversion Ha; subst; try (unfold waiting in *; congruence);
        exfalso; assert (own_packet s /\ for_cvs s) as X by (split; assumption); apply Ho in X; congruence.
  Qed.

  (** ** Calls *)
  Lemma wait_dyn : forall ds, keeps wait (@dyn_all I ds).
  Proof. induction ds as [|d ds IH]; [keeps_tac|]. apply keeps_bind; [keeps_tac|intros _; exact IH]. Qed.
  Lemma wait_datagram : forall ds, keeps wait (@datagram I ds).
  Proof.
    intros ds. unfold datagram. apply keeps_bind; [apply keeps_get|intros r]. apply keeps_bind; [keeps_tac|intros _].
    apply keeps_bind; [apply keeps_get|intros r']. destruct (block_dyn (r_bidi r')); [apply keeps_ret|apply wait_dyn].
  Qed.

  Lemma wait_step : forall o l h v w s b s' es, good E m l v s -> W w s -> (cutout s -> h = Some (last_bytes s)) ->
    step E o s = Ok (b, s', es) ->
    (forall bs, completed o l = Some bs -> is_logon bs = false) -> (o = OBiDi2 -> l_fresh l = true) ->
    Forall (allowed able) (snd (obey_all (e_east_west E) (match o with OExecute => if l_fresh l then [] else firstn 1 (l_queue l) | _ => [] end) v)) ->
    W (snd (turn (e_east_west E) o l h (v, w))) s'.
  Proof.
    intros o l h v w s b s' es Hg HW Hh H Hno Hbi Hra. pose proof (good_page E m _ _ _ Hg) as Hvp. destruct Hg as (Hre & HR & HS & Hpg & Hpe).
    destruct o; cbn [step] in H; cbn [turn snd];
      try (lazymatch type of H with execute _ _ = _ => fail | _ => idtac end; apply bind_inv in H; destruct H as (u & s2 & e3 & e4 & H & H2 & _); inversion H2; subst; clear H2).
    - assert (keeps wait (init E)) as K by keeps_tac. exact (W_kept w s _ (K _ _ _ _ H) HW).
    - assert (keeps wait (@enable I)) as K by keeps_tac. exact (W_kept w s _ (K _ _ _ _ H) HW).
    - assert (keeps wait (@disable I)) as K by keeps_tac. exact (W_kept w s _ (K _ _ _ _ H) HW).
    - apply (W_kept w s); [|exact HW]. destruct (completed (OReceive time) l) as [p|] eqn:Ec.
      + destruct (receive_ordinary E l s time p HR Ec (Hno p eq_refl)) as (_ & _ & f & _ & Hr). rewrite Hr in H. inversion H; subst. reflexivity.
      + destruct (receive_nothing E l s time HR Ec) as [Hr|(f & c & ad & Hr & _)]; [congruence|]. rewrite Hr in H. inversion H; subst. reflexivity.
    - destruct HR as (_ & Hq & Hf & _).
      destruct (execute_cases E s b s' es Hre H) as [(_ & -> & _ & Hn)|(p & q & _ & _ & _ & _ & Hr & _)].
      + assert ((if l_fresh l then [] else firstn 1 (l_queue l)) = []) as ->; [|exact HW].
        destruct (l_fresh l) eqn:Ef; [reflexivity|]. destruct (l_queue l) as [|p q] eqn:Eq; [reflexivity|].
        elim (Hn p q). split; [exact Hf|exact Hq].
      + assert ((if l_fresh l then [] else firstn 1 (l_queue l)) = [p]) as Ee.
        { destruct Hr as [R1 R2]. rewrite <- Hf, R1, <- Hq, R2. reflexivity. }
        rewrite Ee in *. cbn [snd]. apply (wait_execute E m able Hk v w s p q b s' es Hre HS HW Hvp Hr H).
        cbn [obey_all] in Hra. destruct (obey (e_east_west E) p v). cbn [snd] in *. rewrite app_nil_r in Hra. exact Hra.
    - exact (W_kept w s _ (wait_datagram ds _ _ _ _ H) HW).
    - assert (keeps wait (biDiChannel1 E)) as K by keeps_tac. exact (W_kept w s _ (K _ _ _ _ H) HW).
    - assert (cutout s) as Hc by (unfold cutout; destruct HR as (_ & _ & Hf & _); rewrite Hf; apply Hbi; reflexivity).
      rewrite (Hh Hc). destruct (spoken v w s Hre HS HW Hc) as (s3 & ds & H3 & T & F). assert (s' = s3) as -> by congruence.
      destruct (own_cv_packet (v_cvs v) (last_bytes s)); [|exact (F eq_refl)].
      destruct (T eq_refl) as [_ K]. destruct (speaks (last_bytes s) v w); exact K.
    - rewrite Hpe in H. destruct i; cbn [nth_error] in H; inversion H; subst; exact HW.
  Qed.

  Lemma logons_app : forall a b l, logons (a ++ b) l = logons a l ++ logons b (listen_all a l).
  Proof. induction a as [|o a IH]; intros b l; [reflexivity|]. cbn [List.app logons]. rewrite IH, app_assoc. reflexivity. Qed.
  Lemma taken_app : forall a b l, SpecRx.taken (a ++ b) l = SpecRx.taken a l ++ SpecRx.taken b (listen_all a l).
  Proof. induction a as [|o a IH]; intros b l; [reflexivity|]. cbn [List.app SpecRx.taken]. rewrite IH, app_assoc. reflexivity. Qed.
  Lemma on_time_app : forall a b, on_time (a ++ b) -> on_time a.
  Proof. intros a b H o1 o o2 ->. apply (H o1 o (o2 ++ b)). rewrite <- app_assoc. reflexivity. Qed.

  Lemma wait_new : forall i s es, run E [OInit] (st0 i) = Ok (tt, s, es) -> W None s.
  Proof.
    intros i s es H. assert (keeps wait (run E [OInit])) as K by (cbn [run step]; keeps_tac).
    apply (W_kept None (st0 i)); [exact (K _ _ _ _ H)|]. split; reflexivity.
  Qed.

  (** From the start *)
  Lemma dialogue : forall os i s es, run E (OInit :: os) (st0 i) = Ok (tt, s, es) -> logons os listener0 = [] -> on_time os ->
    Forall (allowed able) (snd (obey_all (e_east_west E) (SpecRx.taken os listener0) (new_view (m i)))) ->
    let x := converse (e_east_west E) os listener0 None (new_view (m i), None) in
    good E m (listen_all os listener0) (fst x) s /\ W (snd x) s.
  Proof.
    induction os as [|o os IH] using rev_ind; intros i s es H Hlo Hot Hra x.
    - split; [exact (proj1 (good_new E m able Hk i s es H))|exact (wait_new i s es H)].
    - subst x. rewrite converse_snoc. change (OInit :: os ++ [o]) with ((OInit :: os) ++ [o]) in H.
      pose proof H as Hall. apply (run_snoc E) in H. destruct H as (s1 & e1 & b & e2 & Hrun & H).
      rewrite logons_app in Hlo. apply app_eq_nil in Hlo. destruct Hlo as [Hl1 Hl2].
      rewrite taken_app, obey_app in Hra. cbn [snd] in Hra. apply Forall_app in Hra. destruct Hra as [Hr1 Hr2].
      specialize (IH i s1 e1 Hrun Hl1 (on_time_app _ _ Hot) Hr1). cbv zeta in IH.
      pose proof (fst_converse (e_east_west E) os listener0 None (new_view (m i), None)) as Hfst. cbn [fst] in Hfst. rewrite <- Hfst in Hr2.
      destruct (converse (e_east_west E) os listener0 None (new_view (m i), None)) as [v w]. cbn [fst snd] in *. destruct IH as [G1 W1].
      assert (Hno : forall bs, completed o (listen_all os listener0) = Some bs -> is_logon bs = false).
      { intros bs Hc. cbn [logons] in Hl2. rewrite Hc in Hl2. destruct (is_logon bs); [discriminate|reflexivity]. }
      assert (Ht : forall l, SpecRx.taken [o] l = match o with OExecute => if l_fresh l then [] else firstn 1 (l_queue l) | _ => [] end).
      { intros l. cbn [SpecRx.taken]. apply app_nil_r. }
      rewrite Ht in Hr2.
      split.
      + rewrite fst_turn. cbn [fst]. unfold listen_all. rewrite fold_left_app. cbn [fold_left].
        exact (proj1 (good_step E m able Hk o _ v s1 b s e2 G1 H Hno Hr2)).
      + apply (wait_step o _ _ v w s1 b s e2 G1 W1); try assumption.
        * intros Hc. rewrite <- (fresh_heard i (OInit :: os) s1 e1 Hrun Hc). reflexivity.
        * intros ->. specialize (Hot os OBiDi2 [] eq_refl). exact Hot.
  Qed.
End Run.
