(** The address handed out *)
From Verif Require Import Prelude Address RxState Rx ZBits SpecCodec SpecRx RxBitProofs SpecExec ExecProofs SpecConf SpecCv CvProofs2
  SpecLogon LogonProofs LogonProofs2 LogonProofs3.

Lemma first_long : forall a, 192 <= a < 232 -> first_byte_class a = ATLong.
Proof. intros a H. assert (K := sweep8 (fun a => negb ((192 <=? a) && (a <? 232)) || atype_eqb (first_byte_class a) ATLong) ltac:(vm_compute; reflexivity) a ltac:(unfold byte; lia)).
  cbn beta in K. replace ((192 <=? a) && (a <? 232)) with true in K by (symmetry; lia). destruct (first_byte_class a); try discriminate; reflexivity. Qed.
Lemma first_short : forall a, 1 <= a < 128 -> first_byte_class a = ATShort.
Proof. intros a H. assert (K := sweep8 (fun a => negb ((1 <=? a) && (a <? 128)) || atype_eqb (first_byte_class a) ATShort) ltac:(vm_compute; reflexivity) a ltac:(unfold byte; lia)).
  cbn beta in K. replace ((1 <=? a) && (a <? 128)) with true in K by (symmetry; lia). destruct (first_byte_class a); try discriminate; reflexivity. Qed.
Lemma first_not_long : forall a, 0 <= a < 192 -> first_byte_class a <> ATLong.
Proof. intros a H. assert (K := sweep8 (fun a => (192 <=? a) || negb (atype_eqb (first_byte_class a) ATLong)) ltac:(vm_compute; reflexivity) a ltac:(unfold byte; lia)).
  cbn beta in K. replace (192 <=? a) with false in K by (symmetry; lia). intros X. rewrite X in K. discriminate. Qed.

Lemma flags_11 : forall a b x, 192 <= a < 256 -> (a mod 64 = 56 -> 1 <= b < 128) -> understood a b x = handed_out a b.
Proof.
  intros a b x Ha Hb. unfold understood, handed_out. cbv zeta.
  assert (a mod 64 = a - 192) as Hk by (rewrite <- (Z.mod_add a (-3) 64) by lia; rewrite Z.mod_small; lia).
  rewrite Hk. rewrite Hk in Hb. destruct (a - 192 <? 40) eqn:E1.
  - cbn [address_of hd]. rewrite first_long by lia. do 2 f_equal. lia.
  - destruct (a - 192 =? 56) eqn:E2; [|reflexivity]. cbn [address_of]. rewrite first_short by lia. reflexivity.
Qed.

Lemma flags_not_11 : forall a b x, 0 <= a < 192 -> a mod 64 < 40 -> understood a b x <> handed_out a b.
Proof.
  intros a b x Ha Hk. unfold understood, handed_out. cbv zeta. replace (a mod 64 <? 40) with true by (symmetry; lia).
  cbn [address_of]. pose proof (first_not_long a Ha) as K. intros X. destruct (first_byte_class a); try congruence.
Qed.

Section Obey.
  Context {I : Type} (E : Env I).
  Implicit Types s : st I.

  Lemma obeys_assigned : forall s n p q b s' es, reached E s -> loco_number (logon (r_addrs (rxs s))) n -> n <> 0 ->
    ready s p q -> in_service s = false -> execute E s = Ok (b, s', es) ->
    (b = true <-> for_locos p /\ (aval (address_of p) = 0 \/ aval (address_of p) = n)).
  Proof.
    intros s n p q b s' es Hr Hn Hz Hp Hm He. destruct (reached_ready E s p q Hr Hp) as [Hb Hl].
    rewrite (returns_own E s p q b s' es Hp Hm Hb Hl He). destruct Hn as [Ht Hn]. split.
    - intros [Hf (m & Ha)]. split; [exact Hf|]. destruct Ha as [H|m H1 H2 H3 _|m H1 H2 [_ H3]]; [left; exact H| |]; [exfalso; congruence|].
      right. congruence.
    - intros [Hf Ha]. split; [exact Hf|]. destruct Ha as [Ha|Ha]; [exists 0; constructor; exact Ha|].
      exists (aval (primary (r_addrs (rxs s)))). apply (to_assigned _ _ n); auto. split; [exact Ht|exact Hn].
  Qed.

  (** What is read back *)
  Lemma read_back : forall n, 0 <= n < 16384 -> aval (address_of [n / 256; n mod 256]) = n / 256.
  Proof.
    intros n Hn. cbn [address_of]. assert (K : 0 <= n / 256 < 64) by lia.
    pose proof (first_not_long (n / 256) ltac:(lia)). destruct (first_byte_class (n / 256)); try reflexivity. congruence.
  Qed.

  Lemma restored_wrong : forall s t p g cid sid n i1 i2, hears E s t p -> says p (Enable g cid sid) -> undamaged p ->
    logon_on s = true -> is_selected s = false -> recognized s cid sid -> 0 < n < 16384 ->
    e_readCv E (app s) 65299 = (n / 256, i1) -> e_readCv E i1 65300 = (n mod 256, i2) ->
    exists s' es, receive E t s = Ok (tt, s', es) /\ is_assigned s' = true /\
      aval (logon (r_addrs (rxs s'))) = n / 256 /\ n / 256 <> n.
  Proof.
    intros s t p g cid sid n i1 i2 Hh Hm Hu H1 H2 H3 Hn H4 H5.
    destruct (enabled_known E s t p g cid sid _ _ _ _ Hh Hm Hu H1 H2 H3 H4 H5) as (s' & Hr & _ & Ha & _ & Has & _).
    exists s'. eexists. split; [exact Hr|]. split; [exact Has|]. split; [|lia].
    unfold own_addresses in Ha. assert (logon (r_addrs (rxs s')) = address_of [u8 (n / 256); u8 (n mod 256)]) as -> by congruence.
    rewrite !u8_id by (unfold byte; lia). apply read_back. lia.
  Qed.

  Lemma assigned_11 : forall s t p id a b x c man rest A, hears E s t p -> p = 254 :: 224 + c :: man :: id ++ a :: b :: x :: rest ->
    0 <= c < 16 -> undamaged p -> logon_on s = true -> id = own_id s -> logon_answers s = [] ->
    192 <= a -> (a mod 64 = 56 -> 1 <= b < 128) -> handed_out a b = Some A ->
    exists s', receive E t s = Ok (tt, s', []) /\ logon (r_addrs (rxs s')) = A /\ is_assigned s' = true /\ to_store s' = true /\
      primary (r_addrs (rxs s')) = primary (r_addrs (rxs s)) /\ aval (consist (r_addrs (rxs s'))) = 0 /\ answers_with s' assign_answer.
  Proof.
    intros s t p id a b x c man rest A Hh Hp Hc Hu H1 H2 H3 Ha Hb HA.
    assert (byte a) as Hba.
    { pose proof Hh as (i & os & es & Hr & Hcm). destruct (logon_receive E s t p Hh) as (_ & Hby & _); [subst p; reflexivity|].
      rewrite Hp in Hby. inversion Hby as [|? ? _ B1]; subst. inversion B1 as [|? ? _ B2]; subst. inversion B2 as [|? ? _ B3]; subst.
      apply Forall_app in B3. destruct B3 as [_ B3]. inversion B3; subst; assumption. }
    unfold byte in Hba.
    pose proof (assigned E s t p id a b x c man rest A Hh Hp Hc Hu H1 H2) as K. rewrite flags_11 in K by (auto; lia). specialize (K HA).
    rewrite H3 in K. destruct K as (s' & Hr & _ & Ho & Has & Hst & Han & _). unfold own_addresses in Ho.
    replace (a <? 192) with false in Ho by (symmetry; lia). rewrite andb_false_r in Ho.
    exists s'. split; [exact Hr|]. split; [congruence|]. split; [exact Has|]. split; [exact Hst|]. split; [congruence|].
    split; [|exact Han]. assert (consist (r_addrs (rxs s')) = Addr 0 (atyp (consist (r_addrs (rxs s)))) (arev (consist (r_addrs (rxs s))))) as -> by congruence.
    reflexivity.
  Qed.

  Lemma assigned_other : forall s t p id a b x c man rest, hears E s t p -> p = 254 :: 224 + c :: man :: id ++ a :: b :: x :: rest ->
    0 <= c < 16 -> undamaged p -> logon_on s = true -> id = own_id s -> logon_answers s = [] -> a < 192 -> a mod 64 < 40 ->
    exists s', receive E t s = Ok (tt, s', []) /\ is_assigned s' = true /\ to_store s' = true /\ answers_with s' assign_answer /\
      handed_out a b <> Some (logon (r_addrs (rxs s'))) /\
      (aval (logon (r_addrs (rxs s'))) <> 0 -> primary (r_addrs (rxs s')) = logon (r_addrs (rxs s'))).
  Proof.
    intros s t p id a b x c man rest Hh Hp Hc Hu H1 H2 H3 Ha Hk.
    assert (byte a) as Hba.
    { destruct (logon_receive E s t p Hh) as (_ & Hby & _); [subst p; reflexivity|].
      rewrite Hp in Hby. inversion Hby as [|? ? _ B1]; subst. inversion B1 as [|? ? _ B2]; subst. inversion B2 as [|? ? _ B3]; subst.
      apply Forall_app in B3. destruct B3 as [_ B3]. inversion B3; subst; assumption. }
    unfold byte in Hba. assert (understood a b x = Some (address_of [a; b])) as HA.
    { unfold understood. cbv zeta. replace (a mod 64 <? 40) with true by (symmetry; lia). reflexivity. }
    pose proof (assigned E s t p id a b x c man rest _ Hh Hp Hc Hu H1 H2 HA) as K. rewrite H3 in K.
    destruct K as (s' & Hr & _ & Ho & Has & Hst & Han & _). unfold own_addresses in Ho.
    assert (logon (r_addrs (rxs s')) = address_of [a; b]) as HL by congruence.
    exists s'. split; [exact Hr|]. split; [exact Has|]. split; [exact Hst|]. split; [exact Han|]. rewrite HL. split.
    - intros X. apply (flags_not_11 a b x); [lia|exact Hk|]. congruence.
    - intros Hz. replace (a <? 192) with true in Ho by (symmetry; lia). rewrite (proj2 (Z.eqb_neq _ _) Hz) in Ho. cbn [negb andb] in Ho. congruence.
  Qed.

  Lemma not_mine : forall s t p m, hears E s t p -> says p m -> undamaged p ->
    match m with
    | Select id => logon_on s = false \/ id <> own_id s \/ is_assigned s = true
    | Assign id _ _ => logon_on s = false \/ id <> own_id s
    | Enable _ _ _ => False
    | Nothing => True
    end ->
    exists s', receive E t s = Ok (tt, s', []) /\ took s p s' /\ unmoved s s'.
  Proof. intros s t p m Hh Hm Hu H. apply (ignored E s t p m Hh Hm Hu). destruct m; auto. Qed.
  Lemma silent : forall s t p g cid sid, hears E s t p -> says p (Enable g cid sid) -> undamaged p ->
    logon_on s = false \/ is_selected s = true ->
    exists s', receive E t s = Ok (tt, s', []) /\ took s p s' /\ unmoved s s'.
  Proof. intros s t p g cid sid Hh Hm Hu H. exact (ignored E s t p _ Hh Hm Hu H). Qed.
End Obey.
