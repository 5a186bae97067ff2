(** No undefined behaviour while all packets are complete *)
From Verif Require Import Prelude Address Instruction Checksum Datagram Speed Packets Backoff RxState Rx ZBits RxLogic RxInv
  SpecCodec CodecProofs CodecProofs2 SpecRx RxBitProofs RxBitProofs2 RxBitProofs3 RxBitProofs4 SpecExec ExecProofs SpecConf ConfProofs SpecCv CvProofs CvProofs2 CvProofs3 SaneProofs
  SpecLogon LogonProofs LogonProofs2 LogonProofs3 LogonProofs4 SpecBidi BidiProofs BidiProofs2 BidiProofs3 BidiProofs4 BidiProofs6 BidiProofs7 BidiProofs8 BidiProofs9 SpecSafe SafeProofs.

Section Logon.
  Context {I : Type} (E : Env I).
  Implicit Types s : st I.

  (** Defined, or stopped by the assertion because an answer is waiting *)
  Definition answered s {A} (x : res (A * st I * list event)) : Prop :=
    (exists a s' es, x = Ok (a, s', es)) \/ (x = UB AssertFailed /\ logon_answers s <> []).
  Lemma answered_done : forall s x, answered s x -> answered s (done (I := I) x).
  Proof. intros s x [(a & s' & es & ->)|[-> H]]; [left; do 3 eexists; reflexivity|right; auto]. Qed.
  Lemma answered_closing : forall s x, answered s x -> answered s (closing (I := I) x).
  Proof. intros s x [(a & s' & es & ->)|[-> H]]; [left; do 3 eexists; reflexivity|right; auto]. Qed.

  Lemma answered_select : forall s id, sane (rxs s) -> answered s (logonSelect id s).
  Proof.
    intros s id Hs. destruct (select_run s id Hs) as (cs & _ & ->). destruct (_ && _ && _); [|left; eauto].
    destruct (logon_answers s) eqn:El; [left; eauto|right; split; [reflexivity|congruence]].
  Qed.
  Lemma answered_assign : forall s id a ow, answered s (logonAssign id a ow s).
  Proof.
    intros s id a ow. destruct (assign_run s id a ow) as (cs & _ & ->). destruct (_ && _); [|left; eauto].
    destruct (logon_answers s) eqn:El; [left; eauto|right; split; [reflexivity|congruence]].
  Qed.
  Lemma answered_enable : forall s g cid sid, sane (rxs s) -> byte sid -> answered s (logonEnable E g cid sid s).
  Proof.
    intros s g cid sid Hs Hb. destruct (enable_run E s g cid sid Hs Hb) as (cs & _ & ->). destruct (_ || _); [left; eauto|].
    destruct (recognized_b s cid sid).
    { destruct (e_readCv E (app s) 65299) as [x i1]. destruct (e_readCv E i1 65300) as [y i2]. left; eauto. }
    unfold answering. destruct g; cbv zeta; try (left; eauto; fail).
    all: destruct (bo_count _ =? 0); [|left; eauto]; destruct (e_rand E _); destruct (logon_deque _) eqn:El; [left; eauto|right; split; [reflexivity|]].
    all: unfold logon_answers; destruct (cid =? known_station s) in El; cbn in El; congruence.
  Qed.

  Lemma high : forall b, byte b -> Z.land b 0xF0 = 16 * (b / 16).
  Proof. intros b Hb. apply Z.eqb_eq. exact (sweep8 (fun b => Z.land b 0xF0 =? 16 * (b / 16)) ltac:(vm_compute; reflexivity) b Hb). Qed.
  Lemma decode_starting : forall a r, byte a -> ~ 192 <= a < 232 -> exists x, decode_address (a :: r) = Ok x.
  Proof.
    intros a r Ha Hn. unfold byte in Ha. cbn [decode_address]. destruct (a =? 0); [eauto|]. destruct (a <=? 127); [eauto|]. destruct (a <=? 191) eqn:E1; [eauto|].
    destruct (a <=? 231) eqn:E2; [exfalso; lia|]. destruct (a <=? 252); [eauto|]. destruct (a =? 253); [eauto|]. destruct (a =? 254); eauto.
  Qed.
  Lemma decode_full : forall a b r, byte a -> byte b -> exists x, decode_address (a :: b :: r) = Ok x.
  Proof.
    intros a b r Ha Hb. destruct (Z_le_dec 192 a) as [H1|H1]; [destruct (Z_lt_dec a 232) as [H2|H2]|]; [|apply decode_starting; [exact Ha|lia]..].
    cbn [decode_address]. replace (a =? 0) with false by lia. replace (a <=? 127) with false by lia. replace (a <=? 191) with false by lia.
    replace (a <=? 231) with true by lia. eauto.
  Qed.
  Lemma decode_cut : forall a, 192 <= a < 232 -> decode_address [a] = UB OutOfBounds.
  Proof.
    intros a H. cbn [decode_address]. replace (a =? 0) with false by lia. replace (a <=? 127) with false by lia. replace (a <=? 191) with false by lia.
    replace (a <=? 231) with true by lia. reflexivity.
  Qed.

  Lemma auto_exact : forall s p, sane (rxs s) -> Forall byte p -> (3 <= length p)%nat ->
    if (logon_need p <=? length p)%nat then answered s (executeAutomaticLogon E (Addr 254 ATLogon false) (tl p) s)
    else executeAutomaticLogon E (Addr 254 ATLogon false) (tl p) s = UB OutOfBounds.
  Proof.
    intros s [|b0 [|b1 [|b2 r]]] Hs Hb Hl; cbn [length] in Hl; try lia.
    apply Forall_inv_tail in Hb. pose proof (Forall_inv Hb) as Hb1. apply Forall_inv_tail in Hb. pose proof (Forall_inv Hb) as Hb2. apply Forall_inv_tail in Hb.
    unfold executeAutomaticLogon. cbn [aval tl]. change (negb (254 =? 254)) with false. cbn iota.
    erewrite bind_at by reflexivity. rewrite high by exact Hb1. rewrite then_true.
    unfold logon_need. cbv zeta. change (nth 1 (b0 :: b1 :: b2 :: r) 0) with b1. set (k := b1 / 16).
    replace (16 * k =? 0xD0) with (k =? 13) by lia. replace (16 * k =? 0xE0) with (k =? 14) by lia. replace (16 * k =? 0xF0) with (k =? 15) by lia.
    destruct (k =? 13).
    { unfold subspan4. cbn [length]. destruct (Nat.leb_spec 7 (S (S (S (length r))))) as [L|L].
      - replace (2 + 4 <=? S (S (length r)))%nat with true by (symmetry; apply Nat.leb_le; lia). rewrite LogonProofs2.bind_lift.
        apply answered_done. apply answered_select. exact Hs.
      - replace (2 + 4 <=? S (S (length r)))%nat with false by (symmetry; apply Nat.leb_gt; lia). reflexivity. }
    destruct (k =? 14).
    { unfold subspan4. destruct r as [|r0 [|r1 [|r2 [|r3 [|a r]]]]]; try reflexivity.
      do 4 (apply Forall_inv_tail in Hb). pose proof (Forall_inv Hb) as Ha. apply Forall_inv_tail in Hb.
      change (nth 7 (b0 :: b1 :: b2 :: r0 :: r1 :: r2 :: r3 :: a :: r) 0) with a.
      change (nth 8 (b0 :: b1 :: b2 :: r0 :: r1 :: r2 :: r3 :: a :: r) 0) with (nth 0 r 0).
      change (2 + 4 <=? length (b1 :: b2 :: r0 :: r1 :: r2 :: r3 :: a :: r))%nat with true. cbn iota. rewrite LogonProofs2.bind_lift.
      erewrite bind_at by reflexivity. cbv zeta. cbn [skipn firstn].
      replace (Z.land a 0x3F) with (a mod 64) by (change 0x3F with (Z.ones 6); rewrite Z.land_ones by lia; reflexivity).
      change 0x28 with 40. destruct (Z.ltb_spec (a mod 64) 40) as [H1|H1].
      - destruct (Z.leb_spec 192 a) as [H2|H2].
        + destruct r as [|b r]; cbn [length Nat.leb].
          * rewrite decode_cut by (unfold byte in Ha; lia). reflexivity.
          * pose proof (Forall_inv Hb) as Hbb. destruct (decode_full a b r Ha Hbb) as (x & ->). rewrite LogonProofs2.bind_lift.
            apply answered_done. apply answered_assign.
        + cbn [length Nat.leb]. destruct (decode_starting a r Ha) as (x & ->); [lia|]. rewrite LogonProofs2.bind_lift. apply answered_done. apply answered_assign.
      - destruct (Z.eqb_spec (a mod 64) 56) as [H2|H2].
        + rewrite H2. change (56 <? 0x38) with false. change (56 <? 0x39) with true. cbn iota.
          destruct r as [|b r]; cbn [nth length].
          * change ((192 <=? 0) && (0 <? 232)) with false. reflexivity.
          * pose proof (Forall_inv Hb) as Hbb. apply Forall_inv_tail in Hb. destruct ((192 <=? b) && (b <? 232)) eqn:E1.
            { destruct r as [|x r]; cbn [length Nat.leb]; [rewrite decode_cut by lia; reflexivity|].
              destruct (decode_full b x r Hbb (Forall_inv Hb)) as (y & ->). rewrite LogonProofs2.bind_lift. apply answered_done. apply answered_assign. }
            cbn [Nat.leb]. destruct (decode_starting b r Hbb) as (x & ->); [lia|]. rewrite LogonProofs2.bind_lift. apply answered_done. apply answered_assign.
        + cbn [length Nat.leb]. assert (answered s (@done I (ret tt s))) as K by (left; do 3 eexists; reflexivity).
          destruct (a mod 64 <? 0x38) eqn:E3; [exact K|]. replace (a mod 64 <? 0x39) with false by lia. exact K. }
    destruct (k =? 15).
    { destruct r as [|r0 [|r1 r]]; cbn [length Nat.leb skipn].
      - reflexivity.
      - reflexivity.
      - cbn [data2uint16]. rewrite LogonProofs2.bind_lift. erewrite bind_at by reflexivity. apply answered_done. apply answered_enable; [exact Hs|].
        apply Forall_inv_tail in Hb. exact (Forall_inv Hb). }
    cbn [length Nat.leb]. left. do 3 eexists. reflexivity.
  Qed.

  Lemma logon_exact : forall s t p, hears E s t p -> is_logon p = true -> undamaged p ->
    if (logon_need p <=? length p)%nat
    then (exists s' es, receive E t s = Ok (tt, s', es)) \/ (receive E t s = UB AssertFailed /\ logon_answers s <> [])
    else receive E t s = UB OutOfBounds.
  Proof.
    intros s t p Hh Hl Hu. destruct (logon_receive E s t p Hh Hl) as (Hs & Hb & H3 & f & Hf & ->).
    rewrite (proj2 (undamaged_spec p) Hu). destruct (is_logon_254 p Hl) as (_ & _ & ->).
    pose proof (auto_exact (entered f p s) p (entered_sane f p s Hf Hb Hs) Hb H3) as K.
    destruct (_ <=? _)%nat; [|rewrite K; reflexivity].
    destruct K as [(a & s' & es & ->)|(-> & K)]; [left; do 2 eexists; reflexivity|right; split; [reflexivity|exact K]].
  Qed.
End Logon.

Section Callbacks.
  Context {I : Type} (E : Env I).
  Lemma run_cb_defined : forall c v s, exists u s' es, run_cb E c v s = Ok (u, s', es).
  Proof.
    assert (P : forall x (s : st I), byte x -> exists u s' es, pom x s = Ok (u, s', es)) by (intros x s Hx; destruct (pom_ok x s Hx) as (s' & H & _); eauto).
    intros [b|b] v s; cbn [run_cb]; unfold cb_byte, cb_bit; rewrite bind_get; destruct (negb _).
    - apply P. apply u8_byte.
    - destruct (_ =? _); do 3 eexists; reflexivity.
    - apply P. destruct (negb (v =? 0)); unfold byte; cbn; lia.
    - destruct (Bool.eqb _ _); do 3 eexists; reflexivity.
  Qed.
End Callbacks.

Section History.
  Context {I : Type} (E : Env I) (HE : short_cv1 E) (time : I -> Z) (HC : clock E time).
  Implicit Types s : st I.

  Lemma receive_fine : forall i os s es t, run E os (st0 i) = Ok (tt, s, es) -> logon_answers s = [] ->
    (forall b, half_bit t = Some b -> (length (frame_so_far (l_heard (listen_all os listener0) ++ [b])) <= 18)%nat) ->
    (forall p, completed (OReceive t) (listen_all os listener0) = Some p -> complete p) ->
    exists s' es', receive E t s = Ok (tt, s', es').
  Proof.
    intros i os s es t Hr Ha Hf Hc. set (l := listen_all os listener0) in *.
    assert (P : (exists p, completed (OReceive t) l = Some p /\ is_logon p = true) \/ forall p, completed (OReceive t) l = Some p -> is_logon p = false).
    { destruct (completed (OReceive t) l) as [p|]; [|right; discriminate]. destruct (is_logon p) eqn:El; [left; exists p; auto|right; intros p' Hp; congruence]. }
    destruct P as [(p & Hp & Hl)|P].
    - assert (Hh : hears E s t p) by (exists i, os, es; auto). specialize (Hc p Hp). unfold complete in Hc. rewrite Hl in Hc.
      destruct (undamaged_b p) eqn:Eu.
      + apply undamaged_spec in Eu. pose proof (logon_exact E s t p Hh Hl Eu) as K. rewrite (proj2 (Nat.leb_le _ _) (Hc Eu)) in K.
        destruct K as [K|(_ & K)]; [exact K|contradiction].
      + destruct (damaged_ignored E s t p Hh Hl) as (s' & K & _); [rewrite <- undamaged_spec; congruence|eauto].
    - pose proof (receive_total E i os s es t Hr) as K. cbv zeta in K. fold l in K. specialize (K P).
      destruct (half_bit t) as [b|]; [|destruct K as (s' & K); eauto].
      specialize (Hf b eq_refl). replace (18 <? _)%nat with false in K by (symmetry; apply Nat.ltb_ge; exact Hf).
      rewrite andb_false_r in K. destruct K as (s' & K). eauto.
  Qed.

  Lemma execute_fine : forall i os s es, 0 <= time i -> run E os (st0 i) = Ok (tt, s, es) -> Forall complete (r_deque (rxs s)) ->
    exists b s' es', execute E s = Ok (b, s', es').
  Proof.
    intros i os s es Hi Hr Hq. pose proof (sound_run E time HC _ _ _ _ Hi Hr) as Hs.
    destruct (f_packet_end (r_fsm (rxs s))) eqn:Ef; [unfold execute; rewrite bind_get, Ef; do 3 eexists; reflexivity|].
    destruct (r_deque (rxs s)) as [|p q] eqn:Eq; [unfold execute; rewrite bind_get, Ef, Eq; do 3 eexists; reflexivity|].
    assert (Hy : ready s p q) by (split; assumption). assert (Hre : reached E s) by (exists i, os, es; exact Hr).
    destruct (reached_ready E s p q Hre Hy) as (Hb & H3).
    destruct (execute_outcome E HE time HC s p q Hs Hy Hb H3) as [(_ & K)|(n & k & (Ho & Hf & _) & _ & K)]; [exact K|].
    apply Forall_inv in Hq. unfold complete in Hq.
    destruct (is_logon p) eqn:El.
    { exfalso. destruct (is_logon_254 p El) as (_ & _ & Ha). unfold for_locos in Hf. rewrite Ha in Hf. cbn in Hf. intuition discriminate. }
    rewrite (proj2 (Nat.leb_le _ _) (Hq Hf k (is_member s n))) in K. destruct K as (s' & es' & K). eauto.
  Qed.

  (** What waits has been sent *)
  Lemma queue_sent : forall sent os, orderly sent os -> Forall sent (l_queue (listen_all os listener0)).
  Proof.
    intros sent os. induction os as [|o os IH] using rev_ind; intros Ho; [constructor|].
    assert (Ho' : orderly sent os). { intros os1 x os2 ->. refine (Ho os1 x (os2 ++ [o]) _). rewrite <- app_assoc. reflexivity. }
    specialize (IH Ho'). pose proof (Ho os o [] eq_refl) as K. cbv zeta in K.
    unfold listen_all. rewrite fold_left_app. cbn [fold_left]. fold (listen_all os listener0). set (l := listen_all os listener0) in *.
    destruct o as [| | |t| |ds| | |j v]; cbn [listen]; try exact IH.
    - destruct (l_on l); exact IH.
    - cbn [completed] in K. destruct (half_bit t) as [b|]; [|exact IH]. destruct K as (_ & K & _). unfold hear.
      destruct (looked_at _ && _); [exact IH|]. destruct (reading _) as [| |bs]; try exact IH. destruct (valid_packet bs); [|exact IH].
      cbn [l_queue]. destruct (is_logon bs); [exact IH|]. apply Forall_app. split; [exact IH|]. constructor; [|constructor]. apply K. reflexivity.
    - destruct (l_fresh l); [exact IH|]. cbn [l_queue]. destruct (l_queue l); [constructor|]. exact (Forall_inv_tail IH).
  Qed.

  Lemma done_step : forall (m : M (I := I) unit) s s' es, m s = Ok (tt, s', es) -> bind m (fun _ => ret false) s = Ok (false, s', es).
  Proof. intros m s s' es H. unfold bind. rewrite H. unfold ret. rewrite app_nil_r. reflexivity. Qed.

  Lemma history : forall i os, 0 <= time i -> orderly complete os -> exists s es, run E os (st0 i) = Ok (tt, s, es).
  Proof.
    intros i os Hi. induction os as [|o os IH] using rev_ind; intros Ho; [exists (st0 i), []; reflexivity|].
    assert (Ho' : orderly complete os). { intros os1 x os2 ->. refine (Ho os1 x (os2 ++ [o]) _). rewrite <- app_assoc. reflexivity. }
    destruct (IH Ho') as (s & es & Hr). pose proof (Ho os o [] eq_refl) as K. cbv zeta in K.
    assert (Hre : reached E s) by (exists i, os, es; exact Hr). pose proof (run_refines E _ _ _ _ _ (Rl0 i) Hr) as HR.
    assert (exists b s' es', step E o s = Ok (b, s', es')) as (b & s' & es' & Hs).
    { destruct o as [| | |t| |ds| | |j v]; cbn [step].
      - destruct (init_defined E HE s Logic.I) as ([] & s' & es' & H & _). rewrite (done_step _ _ _ _ H). eauto.
      - unfold enable. destruct (enabled_flag (r_cv (rxs s))) eqn:Ee; do 3 eexists; apply done_step; rewrite bind_get, Ee; reflexivity.
      - unfold disable. destruct (enabled_flag (r_cv (rxs s))) eqn:Ee; do 3 eexists; apply done_step; rewrite bind_get, Ee; reflexivity.
      - destruct K as (K1 & K2 & K3). destruct (receive_fine i os s es t Hr (served_empty E i os s es Hr K3)) as (s' & es' & H).
        + intros b Hb. rewrite Hb in K1. exact K1.
        + exact K2.
        + rewrite (done_step _ _ _ _ H). eauto.
      - apply (execute_fine i os s es Hi Hr). destruct HR as (_ & -> & _). apply queue_sent. exact Ho'.
      - destruct (offers E s ds Hre K) as (s' & new & H & _). rewrite (done_step _ _ _ _ H). eauto.
      - destruct (sends1 E s Hre) as (s' & es' & H & _). rewrite (done_step _ _ _ _ H). eauto.
      - destruct (biDi2_cutout E s Hre) as (s' & ds & H & _); [destruct HR as (_ & _ & HR & _); unfold cutout; congruence|]. rewrite (done_step _ _ _ _ H). eauto.
      - destruct (nth_error (pending s) j) as [c|]; [|eauto]. destruct (run_cb_defined E c v s) as ([] & s' & es' & H). rewrite (done_step _ _ _ _ H). eauto. }
    exists s', (es ++ es'). apply (run_app_ok E _ _ _ _ _ _ _ Hr). cbn [run]. unfold bind. rewrite Hs. unfold ret. rewrite app_nil_r. reflexivity.
  Qed.
End History.

(** * Generated packets *)

Lemma need_3 : forall k m b, (need k m b <= 3)%nat.
Proof. intros k m b. unfold need. repeat match goal with |- context [if ?c then _ else _] => destruct c end; lia. Qed.
Lemma need_1 : forall k m b, 64 <= b < 192 -> need k m b = 1%nat.
Proof.
  intros k m b Hb. unfold need. replace (b / 16 =? 1) with false by lia. replace (b / 16 =? 14) with false by lia. cbn [existsb].
  repeat match goal with |- context [?x =? ?y] => replace (x =? y) with false by lia end. cbn. destruct m; reflexivity.
Qed.
Lemma payload_need : forall c x k m, cmd_ok c -> (need k m (hd 0%Z (SpecCodec.payload c ++ [x])) <= length (SpecCodec.payload c ++ [x]))%nat.
Proof.
  intros c x k m Hc. pose proof (need_3 k m (hd 0 (SpecCodec.payload c ++ [x]))) as K.
  destruct c; cbn [SpecCodec.payload List.app length hd cmd_ok] in *; try lia; rewrite need_1 by lia; lia.
Qed.

Lemma short_complete : forall b r, (3 <= length r)%nat -> b <> 254 -> ~ 192 <= b < 232 -> complete (b :: r).
Proof.
  intros b r Hr Hb Hl. unfold complete. cbn [is_logon]. rewrite (proj2 (Z.eqb_neq _ _) Hb). intros _ k m.
  assert (body_of (b :: r) = r) as ->.
  { unfold body_of, address_of. unfold first_byte_class. destruct (b =? 0); [reflexivity|]. destruct (b <? 128); [reflexivity|].
    destruct (b <? 192) eqn:E1; [reflexivity|]. destruct (b <? 232) eqn:E2; [exfalso; lia|]. destruct (b <? 253); [reflexivity|].
    destruct (Z.to_nat _) as [|[|[|[|]]]]; reflexivity. }
  pose proof (need_3 k m (hd 0 r)). lia.
Qed.
Lemma payload_not_nil : forall c, SpecCodec.payload c <> []. Proof. destruct c; discriminate. Qed.
Lemma head_complete : forall v c, 0 <= v <= 10239 -> cmd_ok c -> complete (closed (wire_head v ++ SpecCodec.payload c)).
Proof.
  intros v c Hv Hc. unfold complete, wire_head. destruct (v <=? 127) eqn:Ev.
  - unfold closed. cbn [List.app is_logon]. replace (v =? 254) with false by lia. intros _ k m.
    unfold body_of, address_of, first_byte_class. destruct (v =? 0); [|replace (v <? 128) with true by lia]; cbn [atyp skipn]; apply payload_need; exact Hc.
  - unfold closed. cbn [List.app is_logon]. replace (192 + v / 256 =? 254) with false by lia. intros _ k m.
    unfold body_of, address_of, first_byte_class. replace (192 + v / 256 =? 0) with false by lia. replace (192 + v / 256 <? 128) with false by lia.
    replace (192 + v / 256 <? 192) with false by lia. replace (192 + v / 256 <? 232) with true by lia. cbn [atyp skipn]. apply payload_need; exact Hc.
Qed.
Lemma long_complete : forall v c, 0 <= v <= 10239 -> cmd_ok c -> complete (closed ([192 + v / 256; v mod 256] ++ SpecCodec.payload c)).
Proof.
  intros v c Hv Hc. unfold complete, closed. cbn [List.app is_logon]. replace (192 + v / 256 =? 254) with false by lia. intros _ k m.
  unfold body_of, address_of, first_byte_class. replace (192 + v / 256 =? 0) with false by lia. replace (192 + v / 256 <? 128) with false by lia.
  replace (192 + v / 256 <? 192) with false by lia. replace (192 + v / 256 <? 232) with true by lia. cbn [atyp skipn]. apply payload_need; exact Hc.
Qed.

Lemma extended_length : forall bs, length (extended bs) = (length bs + 2)%nat.
Proof. intros bs. unfold extended, closed. rewrite !app_length. cbn. lia. Qed.
Lemma logon_need_10 : forall p, (logon_need p <= 10)%nat.
Proof. intros p. unfold logon_need. cbv zeta. repeat match goal with |- context [if ?c then _ else _] => destruct c end; lia. Qed.

Lemma ok_inj : forall (a b : list Z), Ok a = Ok b -> b = a. Proof. congruence. Qed.
Lemma generated_complete : forall p, generated p -> complete p.
Proof.
  intros p [v c q Hv Hc H|v r c q Hv Hc H|cv b q Hcv Hb H|cv b q Hcv Hb H|cv bit pos q Hcv Hb H|cv bit pos q Hcv Hb H| | |g cid sid q H1 H2 H|m id sub q H1 H2 H3 H|m id a q H1 H2 H3 H].
  - rewrite generate_frame in H by assumption. apply ok_inj in H; subst q. rewrite frame_closed. apply head_complete; assumption.
  - rewrite generate_long in H by assumption. apply ok_inj in H; subst q. apply long_complete; assumption.
  - destruct (gen_service cv b false 0 Hcv Hb ltac:(lia)) as (K & _). rewrite K in H. apply ok_inj in H; subst q. apply short_complete; [cbn; lia|lia..].
  - destruct (gen_service cv b false 0 Hcv Hb ltac:(lia)) as (_ & K & _). rewrite K in H. apply ok_inj in H; subst q. apply short_complete; [cbn; lia|lia..].
  - destruct (gen_service cv 0 bit pos Hcv ltac:(unfold byte; lia) Hb) as (_ & _ & K & _). rewrite K in H. apply ok_inj in H; subst q. apply short_complete; [cbn; lia|lia..].
  - destruct (gen_service cv 0 bit pos Hcv ltac:(unfold byte; lia) Hb) as (_ & _ & _ & K). rewrite K in H. apply ok_inj in H; subst q. apply short_complete; [cbn; lia|lia..].
  - intros H. cbn in H. intuition discriminate.
  - intros _ k m. apply (proj1 (Nat.leb_le _ _)). destruct m; reflexivity.
  - rewrite gen_logon_enable in H by assumption. apply ok_inj in H; subst q. intros _. unfold logon_need. cbv zeta. cbn [closed List.app nth length].
    pose proof (group_val_range g). replace ((252 + group_val g) / 16) with 15 by lia. cbn. lia.
  - rewrite gen_logon_select in H by assumption. apply ok_inj in H; subst q. unfold complete. change (is_logon _) with true. intros _.
    pose proof (logon_need_10 (extended [254; 0xD0 + m / 256; m mod 256; id / 2 ^ 24; (id / 2 ^ 16) mod 256; (id / 256) mod 256; id mod 256; sub])) as K.
    rewrite extended_length. exact K.
  - rewrite gen_logon_assign in H by assumption. apply ok_inj in H; subst q. unfold complete. change (is_logon _) with true. intros _.
    rewrite extended_length. cbn [length]. refine (Nat.le_trans _ _ _ (logon_need_10 _) _). lia.
Qed.

Lemma orderly_weaken : forall (a b : list Z -> Prop) os, (forall p, a p -> b p) -> orderly a os -> orderly b os.
Proof.
  intros a b os Hab Ho os1 o os2 E. specialize (Ho os1 o os2 E). cbv zeta in *. destruct o; try exact Ho.
  destruct Ho as (H1 & H2 & H3). split; [exact H1|]. split; [|exact H3]. intros p Hp. apply Hab. exact (H2 p Hp).
Qed.

Section Claims.
  Context {I : Type} (E : Env I) (time : I -> Z).
  Implicit Types s : st I.

  Lemma executes_generated : short_cv1 E -> clock E time -> forall i os s es, 0 <= time i -> run E os (st0 i) = Ok (tt, s, es) ->
    Forall generated (r_deque (rxs s)) -> exists b s' es', execute E s = Ok (b, s', es').
  Proof.
    intros HE HC i os s es Hi Hr Hg. apply (execute_fine E HE time HC i os s es Hi Hr).
    eapply Forall_impl; [|exact Hg]. exact generated_complete.
  Qed.
  Lemma history_generated : short_cv1 E -> clock E time -> forall i os, 0 <= time i -> orderly generated os ->
    exists s es, run E os (st0 i) = Ok (tt, s, es).
  Proof.
    intros HE HC i os Hi Ho. apply (history E HE time HC i os Hi). exact (orderly_weaken _ _ _ generated_complete Ho).
  Qed.
  Lemma executes_exactly : short_cv1 E -> clock E time -> forall i os s es p q, 0 <= time i -> run E os (st0 i) = Ok (tt, s, es) -> ready s p q ->
    (forall n, ~ obeyed s p n) /\ (exists b s' es', execute E s = Ok (b, s', es')) \/
    exists n k, obeyed s p n /\ nth_in_row s p k /\
      if (need k (is_member s n) (hd 0%Z (body_of p)) <=? length (body_of p))%nat
      then exists s' es', execute E s = Ok (true, s', es') else execute E s = UB OutOfBounds.
  Proof.
    intros HE HC i os s es p q Hi Hr Hy. assert (Hre : reached E s) by (exists i, os, es; exact Hr).
    destruct (reached_ready E s p q Hre Hy) as (Hb & H3).
    exact (execute_outcome E HE time HC s p q (sound_run E time HC _ _ _ _ Hi Hr) Hy Hb H3).
  Qed.
End Claims.
