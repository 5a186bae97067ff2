(** Writing configuration CVs *)
From Verif Require Import Prelude Address Instruction Datagram ZBits SpecCodec RxState Rx CodecProofs CodecProofs2 RxLogic SpecRx RxBitProofs
  SpecExec ExecProofs SpecConf ConfProofs.

Section Write.
  Context {I : Type} (E : Env I) (m : I -> Z -> Z) (Hm : cv_memory E m).
  Implicit Types s : st I.

  Definition cfg (r : rx) := (primary (r_addrs r), consist (r_addrs r), upd_did [] (r_conf r)).

  Lemma active_cfg : forall s s' c, cfg (rxs s') = cfg (rxs s) -> active c s -> active c s'.
  Proof.
    intros s s' c H (H1 & H2 & H3). unfold cfg in H. unfold active.
    assert (primary (r_addrs (rxs s')) = primary (r_addrs (rxs s))) as -> by congruence.
    assert (consist (r_addrs (rxs s')) = consist (r_addrs (rxs s))) as -> by congruence.
    assert (upd_did [] (r_conf (rxs s')) = upd_did [] (r_conf (rxs s))) as -> by congruence.
    auto.
  Qed.

  Lemma active_ext : forall s c d, (forall a, In (a + 1) [1; 15; 16; 17; 18; 19; 20; 28; 29] -> c a = d a) ->
    active c s -> active d s.
  Proof.
    intros s c d H. unfold active, own_address, consist_address, switches, cv.
    rewrite !(H (1 - 1)), !(H (15 - 1)), !(H (16 - 1)), !(H (17 - 1)), !(H (18 - 1)), !(H (19 - 1)),
      !(H (20 - 1)), !(H (28 - 1)), !(H (29 - 1)) by (cbn; auto 12).
    unfold upd_did. cbn. trivial.
  Qed.

  (** Does not touch configuration or CVs *)
  Definition quiet {A} (f : M (I := I) A) : Prop := forall s a s' es, f s = Ok (a, s', es) ->
    cfg (rxs s') = cfg (rxs s) /\ m (app s') = m (app s) /\ ~ Exists config_write es.

  (** Keeps the active configuration; after writing a configuration CV it is active *)
  Definition sound {A} (f : M (I := I) A) : Prop := forall s a s' es, f s = Ok (a, s', es) ->
    (active (m (app s)) s -> active (m (app s')) s') /\ (Exists config_write es -> active (m (app s')) s').

  Lemma quiet_sound : forall A (f : M (I := I) A), quiet f -> sound f.
  Proof.
    intros A f H s a s' es Hf. destruct (H _ _ _ _ Hf) as (H1 & H2 & H3). rewrite H2.
    split; [exact (active_cfg _ _ _ H1)|intros K; contradiction].
  Qed.

  Lemma quiet_bind : forall A B (f : M (I := I) A) (k : A -> M B), quiet f -> (forall a, quiet (k a)) -> quiet (bind f k).
  Proof.
    intros A B f k Hf Hk s b s' es H. apply bind_inv in H. destruct H as (a & s1 & e1 & e2 & H1 & H2 & ->).
    destruct (Hf _ _ _ _ H1) as (A1 & A2 & A3). destruct (Hk _ _ _ _ _ H2) as (B1 & B2 & B3).
    split; [congruence|]. split; [congruence|]. rewrite Exists_app. tauto.
  Qed.
  Lemma sound_bind : forall A B (f : M (I := I) A) (k : A -> M B), sound f -> (forall a, sound (k a)) -> sound (bind f k).
  Proof.
    intros A B f k Hf Hk s b s' es H. apply bind_inv in H. destruct H as (a & s1 & e1 & e2 & H1 & H2 & ->).
    destruct (Hf _ _ _ _ H1) as (A1 & A2). destruct (Hk _ _ _ _ _ H2) as (B1 & B2).
    split; [auto|]. rewrite Exists_app. tauto.
  Qed.

  Lemma no_ex : forall P : event -> Prop, ~ Exists P [].
  Proof. intros P H. inversion H. Qed.
  Lemma no_ex1 : forall (P : event -> Prop) e, ~ P e -> ~ Exists P [e].
  Proof. intros P e He H. inversion H as [? ? K|? ? K]; [exact (He K)|inversion K]. Qed.

  Ltac q0 := let s := fresh in intros s ? ? ? ?Hq; inversion Hq; subst; split; [reflexivity|split; [reflexivity|]]; apply no_ex.
  Lemma quiet_ret : forall A (a : A), quiet (ret a). Proof. intros A a. q0. Qed.
  Lemma quiet_fail : forall A r, quiet (fail (A := A) r). Proof. intros A r s a s' es H. discriminate. Qed.
  Lemma quiet_lift : forall A (x : res A), quiet (lift x). Proof. intros A [a|r]; [q0|intros s a s' es H; discriminate]. Qed.
  Lemma quiet_get : quiet get. Proof. q0. Qed.
  Lemma quiet_at : forall bs i, quiet (at_ bs i).
  Proof. intros bs i. unfold at_. destruct (nth_error bs i); [apply quiet_ret|apply quiet_fail]. Qed.
  Lemma quiet_modify : forall g, (forall r, cfg (g r) = cfg r) -> quiet (modify g).
  Proof.
    intros g Hg s a s' es H. unfold modify in H. assert (s' = Mk_st (g (rxs s)) (app s) (pending s)) as -> by congruence.
    assert (es = []) as -> by congruence. split; [apply Hg|]. split; [reflexivity|apply no_ex].
  Qed.
  Lemma quiet_readCvByte : forall a b, quiet (readCvByte E a b).
  Proof.
    intros a b s r s' es H. unfold readCvByte in H. pose proof (mem_readByte E m Hm (app s) a b) as K.
    destruct (e_readCvByte E (app s) a b) as [v i]. cbn [fst snd] in K. apply Ok_inj in H. inversion H; subst.
    split; [reflexivity|]. split; [apply K|apply no_ex1; intros []].
  Qed.
  Lemma quiet_readCvBit : forall a b k, 0 <= k < 8 -> quiet (readCvBit E a b k).
  Proof.
    intros a b k Hk s r s' es H. unfold readCvBit in H. pose proof (mem_readBit E m Hm (app s) a b k Hk) as K.
    destruct (e_readCvBit E (app s) a b k) as [v i]. cbn [fst snd] in K. apply Ok_inj in H. inversion H; subst.
    split; [reflexivity|]. split; [apply K|apply no_ex1; intros []].
  Qed.
  Lemma quiet_call : forall e, ~ config_write e -> quiet (call E e).
  Proof.
    intros e He s r s' es H. unfold call in H. apply Ok_inj in H. inversion H; subst.
    split; [reflexivity|]. split; [apply (mem_hook E m Hm)|apply no_ex1; exact He].
  Qed.
  Lemma quiet_rand : quiet (rand E).
  Proof.
    intros s r s' es H. unfold rand in H. pose proof (mem_rand E m Hm (app s)) as K.
    destruct (e_rand E (app s)) as [v i]. apply Ok_inj in H. inversion H; subst.
    split; [reflexivity|]. split; [exact K|apply no_ex].
  Qed.
  Lemma quiet_now : quiet (now E).
  Proof.
    intros s r s' es H. unfold now in H. pose proof (mem_now E m Hm (app s)) as K.
    destruct (e_now E (app s)) as [v i]. apply Ok_inj in H. inversion H; subst.
    split; [reflexivity|]. split; [exact K|apply no_ex].
  Qed.

  Ltac quiet1 :=
    lazymatch goal with
    | |- quiet (bind _ _) => apply quiet_bind; [|intro]
    | |- quiet (ret _) => apply quiet_ret
    | |- quiet (fail _) => apply quiet_fail
    | |- quiet (lift _) => apply quiet_lift
    | |- quiet get => apply quiet_get
    | |- quiet (at_ _ _) => apply quiet_at
    | |- quiet (readCvByte _ _ _) => apply quiet_readCvByte
    | |- quiet (readCvBit _ _ _ _) => apply quiet_readCvBit; rewrite ?land_7; lia
    | |- quiet (call _ _) => apply quiet_call; intros []
    | |- quiet (rand _) => apply quiet_rand
    | |- quiet (now _) => apply quiet_now
    | |- quiet (modify _) => apply quiet_modify; intro; reflexivity
    | |- quiet (if ?b then _ else _) => destruct b
    | |- quiet (match ?x with _ => _ end) => destruct x
    | |- quiet (let _ := _ in _) => cbv zeta
    | |- quiet ?f => let h := head_of f in unfold h
    end.
  Ltac quiet_tac := repeat quiet1.

  Lemma quiet_cb_byte : forall b r, quiet (cb_byte E b r). Proof. intros. quiet_tac. Qed.
  Lemma quiet_cb_bit : forall b r, quiet (cb_bit E b r). Proof. intros. quiet_tac. Qed.
  Lemma quiet_cvVerify : forall a b, quiet (cvVerify E a b).
  Proof. intros a b. unfold cvVerify. rewrite (proj1 (mem_sync E m Hm)). quiet_tac. Qed.
  Lemma quiet_cvVerifyBit : forall a b k, 0 <= k < 8 -> quiet (cvVerifyBit E a b k).
  Proof. intros a b k Hk. unfold cvVerifyBit. rewrite (proj1 (mem_sync E m Hm)). quiet_tac; apply Hk. Qed.

  Lemma init_cvs_spec : forall a, existsb (Z.eqb a) init_cvs = true <-> In (a + 1) [1; 15; 16; 17; 18; 19; 20; 28; 29].
  Proof.
    intros a. unfold init_cvs. cbn [existsb In]. rewrite !orb_true_iff, !Z.eqb_eq. intuition (try lia; discriminate).
  Qed.

  (** A write to CV [a], seen by the application *)
  Definition wrote (a : Z) (f : M (I := I) unit) : Prop := forall s u s' es, f s = Ok (u, s', es) ->
    cfg (rxs s') = cfg (rxs s) /\ (forall x, x <> a -> m (app s') x = m (app s) x) /\
    (Exists config_write es -> In (a + 1) [1; 15; 16; 17; 18; 19; 20; 28; 29]).

  Lemma sound_write : forall a f, wrote a f -> sound (bind f (fun _ => reinit E a)).
  Proof.
    intros a f Hf s u s' es H. apply bind_inv in H. destruct H as (u1 & s1 & e1 & e2 & H1 & H2 & ->).
    destruct (Hf _ _ _ _ H1) as (A1 & A2 & A3). unfold reinit, when in H2.
    destruct (existsb (Z.eqb a) init_cvs) eqn:Ea.
    - assert (active (m (app s')) s') as K; [|tauto].
      destruct (init_memory E m s1 Hm) as [[_ Hu]|(_ & t & Ht & [Hc _] & _ & Hmt)]; [congruence|].
      assert (t = s') as <- by congruence. rewrite Hmt. exact Hc.
    - unfold ret in H2. assert (s' = s1) as -> by congruence. assert (e2 = []) as -> by congruence.
      rewrite app_nil_r.
      assert (Hn : ~ In (a + 1) [1; 15; 16; 17; 18; 19; 20; 28; 29]) by (rewrite <- init_cvs_spec; congruence).
      split; [|intros K; elim (Hn (A3 K))].
      intros K. apply (active_cfg _ _ _ A1). revert K. apply active_ext.
      intros x Hx. symmetry. apply A2. intros ->. exact (Hn Hx).
  Qed.

  Lemma wrote_byte : forall a b (k : Z -> M (I := I) unit), (forall v, quiet (k v)) -> wrote a (bind (writeCv E a b) k).
  Proof.
    intros a b k Hk s u s' es H. apply bind_inv in H. destruct H as (v & s1 & e1 & e2 & H1 & H2 & ->).
    unfold writeCv in H1. pose proof (mem_write E m Hm (app s) a b) as K.
    destruct (e_writeCv E (app s) a b) as [w i]. cbn [fst snd] in K. apply Ok_inj in H1.
    assert (s1 = Mk_st (rxs s) i (pending s)) as -> by congruence. assert (e1 = [EWriteCv a b (u8 w)]) as -> by congruence.
    destruct (Hk _ _ _ _ _ H2) as (B1 & B2 & B3). cbn [rxs app] in *.
    split; [exact B1|]. split; [rewrite B2; apply K|].
    cbn [List.app]. intros X. inversion X as [? ? Y|? ? Y]; subst; [exact Y|contradiction].
  Qed.
  Lemma wrote_bit : forall a b p (k : bool -> M (I := I) unit), 0 <= p < 8 -> (forall v, quiet (k v)) ->
    wrote a (bind (writeCvBit E a b p) k).
  Proof.
    intros a b p k Hp Hk s u s' es H. apply bind_inv in H. destruct H as (v & s1 & e1 & e2 & H1 & H2 & ->).
    unfold writeCvBit in H1. pose proof (mem_writeBit E m Hm (app s) a b p Hp) as K.
    destruct (e_writeCvBit E (app s) a b p) as [w i]. cbn [fst snd] in K. apply Ok_inj in H1.
    assert (s1 = Mk_st (rxs s) i (pending s)) as -> by congruence. assert (e1 = [EWriteCvBit a b p w]) as -> by congruence.
    destruct (Hk _ _ _ _ _ H2) as (B1 & B2 & B3). cbn [rxs app] in *.
    split; [exact B1|]. split; [rewrite B2; apply K|].
    cbn [List.app]. intros X. inversion X as [? ? Y|? ? Y]; subst; [exact Y|contradiction].
  Qed.

  Lemma sound_cvWrite : forall a b, sound (cvWrite E a b).
  Proof.
    intros a b. unfold cvWrite. rewrite (proj2 (mem_sync E m Hm)).
    apply sound_bind; [apply quiet_sound, quiet_get|intros r].
    destruct (cvs_locked (r_conf r) && negb (a =? 14)); [apply quiet_sound, quiet_ret|].
    apply sound_write, wrote_byte. intros v. apply quiet_cb_byte.
  Qed.
  Lemma sound_cvWriteBit : forall a b p, 0 <= p < 8 -> sound (cvWriteBit E a b p).
  Proof.
    intros a b p Hp. unfold cvWriteBit. rewrite (proj2 (mem_sync E m Hm)).
    apply sound_bind; [apply quiet_sound, quiet_get|intros r].
    destruct (cvs_locked (r_conf r) && negb (a =? 14)); [apply quiet_sound, quiet_ret|].
    apply sound_write, wrote_bit; [exact Hp|]. intros v. apply quiet_cb_bit.
  Qed.

  Ltac sound1 :=
    lazymatch goal with
    | |- sound (bind _ _) => apply sound_bind; [|intro]
    | |- sound (ret _) => apply quiet_sound, quiet_ret
    | |- sound (fail _) => apply quiet_sound, quiet_fail
    | |- sound (lift _) => apply quiet_sound, quiet_lift
    | |- sound get => apply quiet_sound, quiet_get
    | |- sound (at_ _ _) => apply quiet_sound, quiet_at
    | |- sound (call _ _) => apply quiet_sound, quiet_call; intros []
    | |- sound (rand _) => apply quiet_sound, quiet_rand
    | |- sound (now _) => apply quiet_sound, quiet_now
    | |- sound (modify _) => apply quiet_sound, quiet_modify; intro; reflexivity
    | |- sound (cvVerify _ _ _) => apply quiet_sound, quiet_cvVerify
    | |- sound (cvVerifyBit _ _ _ _) => apply quiet_sound, quiet_cvVerifyBit; rewrite ?land_7; lia
    | |- sound (cvWrite _ _ _) => apply sound_cvWrite
    | |- sound (cvWriteBit _ _ _ _) => apply sound_cvWriteBit; rewrite ?land_7; lia
    | |- sound (if ?b then _ else _) => destruct b
    | |- sound (match ?x with _ => _ end) => destruct x
    | |- sound (let _ := _ in _) => cbv zeta
    | |- sound ?f => let h := head_of f in unfold h
    end.
  Ltac sound_tac := repeat sound1.

  Lemma sound_command : sound (executeCommand E).
  Proof. sound_tac. Qed.

  Lemma quiet_adr : quiet (@adr I). Proof. quiet_tac. Qed.
  Lemma quiet_qos : quiet (@updateQos I). Proof. quiet_tac. Qed.
  Lemma quiet_tp : quiet (updateTimepoints E). Proof. quiet_tac. Qed.
  Lemma quiet_pop : quiet (@popFront I). Proof. quiet_tac. Qed.

  Lemma store_off : keeps (fun r => logon_store (r_logon r)) (@adr I). Proof. keeps_tac. Qed.

  Lemma execute_sound : forall s b s' es, logon_store (r_logon (rxs s)) = false ->
    execute E s = Ok (b, s', es) ->
    (active (m (app s)) s -> active (m (app s')) s') /\ (Exists config_write es -> active (m (app s')) s').
  Proof.
    intros s b s' es Hl H.
    assert (K : sound (fun s => if logon_store (r_logon (rxs s)) then Ok (b, s, []) else execute E s)).
    { clear - Hm. intros s a s' es H. destruct (logon_store (r_logon (rxs s))) eqn:El.
      { assert (s' = s) as -> by congruence. assert (es = []) as -> by congruence.
        split; [trivial|intros X; inversion X]. }
      unfold execute in H. rewrite bind_get in H.
      destruct (f_packet_end (r_fsm (rxs s)) || (length (r_deque (rxs s)) =? 0)%nat).
      { exact (quiet_sound _ _ (quiet_ret _ false) _ _ _ _ H). }
      apply bind_inv in H. destruct H as (u1 & s1 & e1 & e2 & H1 & H2 & ->).
      pose proof (store_off _ _ _ _ H1) as El1. cbn beta in El1. rewrite El in El1.
      apply bind_inv in H2. destruct H2 as (u2 & s2 & e3 & e4 & H2 & H3 & ->).
      unfold logonStore in H2. rewrite bind_get in H2. rewrite El1 in H2. cbn [negb] in H2. unfold ret in H2.
      assert (s2 = s1) as -> by congruence. assert (e3 = []) as -> by congruence. cbn [List.app].
      destruct (quiet_sound _ _ quiet_adr _ _ _ _ H1) as [A1 A2].
      assert (Hr : sound (bind updateQos (fun _ => bind (updateTimepoints E) (fun _ =>
                     bind (executeCommand E) (fun b => bind popFront (fun _ => ret b)))))).
      { apply sound_bind; [apply quiet_sound, quiet_qos|intros _].
        apply sound_bind; [apply quiet_sound, quiet_tp|intros _].
        apply sound_bind; [apply sound_command|intros x].
        apply sound_bind; [apply quiet_sound, quiet_pop|intros _]. apply quiet_sound, quiet_ret. }
      destruct (Hr _ _ _ _ H3) as [B1 B2]. rewrite Exists_app. tauto. }
    specialize (K s b s' es). cbn beta in K. rewrite Hl in K. exact (K H).
  Qed.
End Write.

Section Direction.
  Context {I : Type} (E : Env I).
  Implicit Types s : st I.

  Lemma combined_silent : forall as_built n fs first l,
    filter (fun e => match e with EDirection _ _ => true | _ => false end) (combined as_built n first fs ++ l) =
    filter (fun e => match e with EDirection _ _ => true | _ => false end) l.
  Proof.
    intros ab n. induction fs as [|f fs IH]; intros first l; [reflexivity|]. cbn [combined List.app filter].
    destruct (ab && (first =? 24)); cbn [functions]; apply IH.
  Qed.

  Lemma direction_reported : forall s p q n d, ready s p q -> in_service s = false -> Forall byte p -> (3 <= length p)%nat ->
    for_locos p -> acts_as (r_addrs (rxs s)) p n -> steers (body_of p) d ->
    exists calls, reacts E s q true calls /\ reports_direction n (turned (r_addrs (rxs s)) n d) calls.
  Proof.
    intros s p q n d Hr Hm Hb Hl Hf Ha Hs. inversion Hs as [b t Hne Hbody Hd|b t Hrange Hne Hbody Hd|b fs c Hne Hbody Hd]; symmetry in Hbody.
    - eexists. split; [exact (speed126_reacts E s p q n b t Hr Hm Hb Hl Hf Ha Hbody)|].
      unfold speed126_calls. rewrite (proj2 (Z.eqb_neq _ _) Hne). reflexivity.
    - eexists. split; [exact (speed28_reacts E s p q n b t Hr Hm Hb Hl Hf Ha Hbody Hrange)|].
      unfold speed28_calls. rewrite (proj2 (Z.eqb_neq _ _) Hne). destruct (f0_exception (r_conf (rxs s))); reflexivity.
    - eexists. split; [exact (combined_reacts E s p q n b fs c Hr Hm Hb Hl Hf Ha Hbody)|].
      unfold reports_direction. rewrite combined_silent.
      unfold speed126_calls. rewrite (proj2 (Z.eqb_neq _ _) Hne). reflexivity.
  Qed.

  Lemma direction_primary : forall s c p q n d, active c s -> ready s p q -> in_service s = false -> Forall byte p -> (3 <= length p)%nat ->
    for_locos p -> acts_as (r_addrs (rxs s)) p n -> n = aval (own_address c) -> steers (body_of p) d ->
    exists calls, reacts E s q true calls /\ reports_direction n (xorb d (bit_of (cv c 29) 0)) calls.
  Proof.
    intros s c p q n d (H1 & _) Hr Hm Hb Hl Hf Ha Hn Hs.
    destruct (direction_reported s p q n d Hr Hm Hb Hl Hf Ha Hs) as (calls & A & B). exists calls. split; [exact A|].
    unfold turned in B. rewrite H1, <- Hn, Z.eqb_refl in B. exact B.
  Qed.

  Lemma direction_consist : forall s c p q n d, active c s -> ready s p q -> in_service s = false -> Forall byte p -> (3 <= length p)%nat ->
    for_locos p -> acts_as (r_addrs (rxs s)) p n -> n = aval (consist_address c) -> n <> aval (own_address c) ->
    steers (body_of p) d ->
    exists calls, reacts E s q true calls /\ reports_direction n (xorb d (bit_of (cv c 19) 7)) calls.
  Proof.
    intros s c p q n d (H1 & H2 & _) Hr Hm Hb Hl Hf Ha Hn Hne Hs.
    destruct (direction_reported s p q n d Hr Hm Hb Hl Hf Ha Hs) as (calls & A & B). exists calls. split; [exact A|].
    unfold turned in B. rewrite H1, H2, (proj2 (Z.eqb_neq _ _) Hne) in B. exact B.
  Qed.
End Direction.

Section Consist.
  Context {I : Type} (E : Env I) (m : I -> Z -> Z) (Hm : cv_memory E m).
  Implicit Types s : st I.

  Lemma consist_value : forall b0 b1, byte b0 -> byte b1 ->
    u8 (Z.lor (Z.shiftl b0 7) b1) = b1 mod 128 + 128 * Z.b2z (Z.odd b0 || (128 <=? b1)).
  Proof.
    intros b0 b1 H0 H1. apply Z.eqb_eq.
    exact (sweep88 (fun b0 b1 => u8 (Z.lor (Z.shiftl b0 7) b1) =? b1 mod 128 + 128 * Z.b2z (Z.odd b0 || (128 <=? b1)))
             ltac:(vm_compute; reflexivity) b0 b1 H0 H1).
  Qed.


  Lemma consist_control : forall s p q n b0 b1 t b s' es, ready s p q -> in_service s = false -> Forall byte p -> (3 <= length p)%nat ->
    for_locos p -> acts_as (r_addrs (rxs s)) p n -> body_of p = b0 :: b1 :: t -> 0x10 <= b0 < 0x20 ->
    cvs_locked (r_conf (rxs s)) = false -> execute E s = Ok (b, s', es) ->
    let v := b1 mod 128 + 128 * Z.b2z (Z.odd b0 || (128 <=? b1)) in
    let c := m (app s') in
    b = true /\ configured c s' /\
    exists e1, storing s e1 /\ es = e1 ++ EWriteCv 18 v (cv c 19) :: config_calls c (e_high_current E).
  Proof.
    intros s p q n b0 b1 t b s' es Hr Hsv Hb Hl Hf Ha Hi Hrange Hlock He v c.
    destruct (own_command E s p q n Hr Hsv Hb Hl Hf Ha) as (s1 & e1 & Hk & Hp & Hs & He').
    rewrite He in He'.
    pose proof (body_bytes p Hb) as Hbb. rewrite Hi in Hbb. inversion Hbb as [|? ? Hb0 Hbt]; subst.
    inversion Hbt as [|? ? Hb1 _]; subst.
    rewrite Hi in He'. unfold dispatch in He'. rewrite decode_instruction_spec in He' by assumption.
    rewrite bind_lift in He'. rewrite (class_of b0 1 2 IConsistControl Hb0 eq_refl) in He' by lia.
    unfold consistControl in He'. cbn [at_ nth_error] in He'. rewrite !bind_ret in He'.
    rewrite consist_value in He' by assumption. fold v in He'.
    unfold cvWrite in He'. rewrite bind_get in He'.
    assert (r_conf (rxs s1) = r_conf (rxs s)) as Hconf by (unfold hk in Hk; congruence).
    assert (r_cv (rxs s1) = r_cv (rxs s)) as Hcv by (unfold hk in Hk; congruence).
    rewrite Hconf, Hlock, (proj2 (mem_sync E m Hm)) in He'. cbn [andb] in He'.
    rewrite bind_assoc in He'.
    match type of He' with _ = match ?x with _ => _ end => destruct x as [[[u s2] e2]|r] eqn:Ex; [|discriminate] end.
    assert (b = true) as -> by congruence. assert (s' = pop q s2) as Hs' by congruence.
    assert (es = e1 ++ e2) as -> by congruence. clear He' He.
    split; [reflexivity|].
    apply bind_inv in Ex. destruct Ex as (w & s3 & e3 & e4 & E1 & E2 & ->).
    unfold writeCv in E1. pose proof (mem_write E m Hm (app s1) 18 v) as K.
    destruct (e_writeCv E (app s1) 18 v) as [w' i]. cbn [fst snd] in K. apply Ok_inj in E1.
    assert (s3 = Mk_st (rxs s1) i (pending s1)) as -> by congruence.
    assert (e3 = [EWriteCv 18 v (u8 w')]) as -> by congruence. assert (w = u8 w') as -> by congruence. clear E1.
    apply bind_inv in E2. destruct E2 as (u2 & s4 & e5 & e6 & E3 & E4 & ->).
    destruct (quiet_cb_byte E m Hm _ _ _ _ _ _ E3) as (Q1 & Q2 & _). cbn [rxs app] in *.
    assert (e5 = []) as ->.
    { revert E3. unfold cb_byte. rewrite bind_get. cbn [rxs]. rewrite Hcv. unfold in_service in Hsv. rewrite Hsv. cbn [negb].
      unfold pom. rewrite bind_get. cbn [rxs].
      destruct (negb (ch2_data_enabled (r_conf (rxs s1)))); [unfold ret; congruence|].
      destruct (make12_ok 0 (u8 w') ltac:(lia) (u8_byte w')) as (x & Hx & _). rewrite Hx, bind_lift. unfold modify. congruence. }
    cbn [List.app]. unfold reinit, when in E4. change (existsb (Z.eqb 18) init_cvs) with true in E4. cbv iota in E4.
    destruct (init_memory E m s4 Hm) as [[_ Hu]|(_ & t' & Ht & Hc & _ & Hmt)]; [congruence|].
    assert (t' = s2) as -> by congruence.
    assert (Hc' : c = m (app s4)) by (unfold c; rewrite Hs'; cbn [pop app]; exact Hmt).
    split.
    - rewrite Hc', Hs'. exact Hc.
    - exists e1. split; [exact Hs|]. f_equal. f_equal.
      + rewrite Hc', Q2. unfold cv. change (19 - 1) with 18. f_equal. apply K.
      + rewrite Hc'. congruence.
  Qed.
End Consist.

Lemma init_defined : forall (I : Type) (E : Env I) m s, cv_memory E m ->
  (init E s = UB OutOfBounds <-> broken_cv1 (m (app s))) /\
  (~ broken_cv1 (m (app s)) -> exists s' es, init E s = Ok (tt, s', es) /\ configured (m (app s)) s' /\ m (app s') = m (app s)).
Proof.
  intros I E m s Hm. destruct (init_memory E m s Hm) as [[H1 H2]|(H1 & s' & H2 & H3 & _ & H4)].
  - split; [tauto|intros H; contradiction].
  - split; [split; [congruence|intros H; contradiction]|]. intros _. eauto 6.
Qed.
