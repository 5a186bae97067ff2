(** Logon of all decoders on the track *)
From Verif Require Import Prelude Address Backoff Instruction Packets Datagram ZBits SpecCodec RxState Rx CodecProofs CodecProofs2 RxLogic SpecRx RxBitProofs
  SpecExec ExecProofs SpecConf ConfProofs ConfProofs2 SpecCv CvProofs CvProofs2 RxInv SaneProofs SpecLogon LogonProofs LogonProofs2 LogonProofs3 LogonProofs4
  SpecBidi BidiProofs BidiProofs2 BidiProofs3 BidiProofs4 BidiProofs7 SpecLayout LayoutProofs SpecNode NodeProofs NodeProofs5 NodeProofs6 NodeProofs7 SpecSession SessionProofs.

Lemma read_back : forall v ds, 0 <= v < 2 ^ 48 -> in_both_channels (Some v) ds -> make_data (decode_datagram (concat ds)) = Ok v.
Proof.
  intros v ds Hv (cs & -> & Hc). cbn [concat]. rewrite app_nil_r, firstn_skipn. apply (carries_reads 8); [lia| |exact Hc].
  change (64 ^ Z.of_nat 8) with (2 ^ 48). exact Hv.
Qed.

Lemma enable_read : forall id, length id = 4%nat -> Forall byte id ->
  0 <= enable_answer id < 2 ^ 48 /\ unique_id (enable_answer id) = id.
Proof.
  intros id Hl Hb. destruct id as [|a [|b [|c [|d [|]]]]]; try discriminate Hl.
  inversion Hb as [|? ? B1 Hb1]; subst. inversion Hb1 as [|? ? B2 Hb2]; subst. inversion Hb2 as [|? ? B3 Hb3]; subst. inversion Hb3 as [|? ? B4 _]; subst.
  unfold byte in *. unfold unique_id, enable_answer, big_endian. cbn [fold_left]. cbv zeta.
  change (2 ^ 44) with 17592186044416. change (2 ^ 32) with 4294967296. change (2 ^ 48) with 281474976710656.
  change (2 ^ 24) with 16777216. change (2 ^ 16) with 65536. change (2 ^ 8) with 256.
  set (w := 256 * (256 * (256 * (256 * 0 + a) + b) + c) + d). assert (0 <= w < 4294967296) as Hw by (subst w; lia).
  split; [lia|].
  replace ((15 * 17592186044416 + 145 * 4294967296 + w) mod 4294967296) with w by (Z.div_mod_to_equations; lia).
  subst w. repeat f_equal; Z.div_mod_to_equations; lia.
Qed.

Lemma select_read : forall n, 0 <= n < 16384 -> 0 <= select_answer n < 2 ^ 48 /\ own_number (select_answer n) = n.
Proof.
  intros n Hn. unfold select_answer, with_crc. set (h := n / 256). set (l := n mod 256).
  assert (0 <= h < 64) as Hh by (subst h; Z.div_mod_to_equations; lia). assert (0 <= l < 256) as Hl by (subst l; Z.div_mod_to_equations; lia).
  assert (n = 256 * h + l) as En by (subst h l; Z.div_mod_to_equations; lia). clearbody h l. subst n.
  assert (byte (crc_serial [128 + h; l; 0; 0; 0])) as Hc by (apply crc_serial_byte; repeat constructor; unfold byte; lia).
  generalize dependent (crc_serial [128 + h; l; 0; 0; 0]). intros c Hc. unfold byte in Hc. unfold own_number, big_endian. cbn [List.app fold_left].
  change (2 ^ 32) with 4294967296. change (2 ^ 48) with 281474976710656. split; [lia|].
  match goal with |- ?x / _ mod _ = _ => replace (x / 4294967296) with (256 * (128 + h) + l) by (Z.div_mod_to_equations; lia) end.
  Z.div_mod_to_equations; lia.
Qed.

Lemma assign_range : 0 <= assign_answer < 2 ^ 48.
Proof. vm_compute. intuition congruence. Qed.

Lemma same_id_refl : forall a, same_id a a = true.
Proof. intros a. unfold same_id. destruct (list_eq_dec Z.eq_dec a a); congruence. Qed.
Lemma same_id_neq : forall a b, a <> b -> same_id a b = false.
Proof. intros a b H. unfold same_id. destruct (list_eq_dec Z.eq_dec a b); congruence. Qed.

Lemma not_addressed : forall free p id n, 208 <= nth 1 p 0 < 240 -> firstn 4 (skipn 3 p) = id -> did (n_conf n) <> id ->
  hear p n = n /\ reply free p n = None.
Proof.
  intros free p id n Hr Hid Hd. assert (same_id id (did (n_conf n)) = false) as Hs by (apply same_id_neq; congruence).
  unfold hear, reply. cbv zeta. rewrite Hid. replace (nth 1 p 0 <? 208) with false by (symmetry; lia). rewrite orb_false_r.
  split.
  - destruct (negb (intact p)); [reflexivity|]. unfold hear_select, hear_assign. rewrite Hs, !andb_false_r.
    destruct (nth 1 p 0 <? 224); [reflexivity|]. replace (nth 1 p 0 <? 240) with true by (symmetry; lia). destruct (understood _ _ _); reflexivity.
  - destruct (negb (intact p) || _); [reflexivity|]. rewrite Hs. cbn [andb]. destruct (nth 1 p 0 <? 224); [reflexivity|].
    replace (nth 1 p 0 <? 240) with true by (symmetry; lia). destruct (understood _ _ _); reflexivity.
Qed.

Lemma one_answers : forall f f' p n n' v v', did (n_conf n) <> did (n_conf n') -> reply f p n = Some v -> reply f' p n' = Some v' -> 240 <= nth 1 p 0.
Proof.
  intros f f' p n n' v v' Hd H H'. destruct (Z.ltb_spec (nth 1 p 0) 240) as [H1|H1]; [|exact H1]. exfalso.
  assert (208 <= nth 1 p 0) as H2.
  { unfold reply in H. cbv zeta in H. destruct (Z.ltb_spec (nth 1 p 0) 208); [|lia]. rewrite orb_true_r in H. discriminate. }
  destruct (list_eq_dec Z.eq_dec (firstn 4 (skipn 3 p)) (did (n_conf n))) as [E|E].
  - destruct (not_addressed f' p _ n' ltac:(lia) eq_refl ltac:(congruence)) as [_ K]. congruence.
  - destruct (not_addressed f p _ n ltac:(lia) eq_refl ltac:(congruence)) as [_ K]. congruence.
Qed.

(** Selected and assigned: nothing but ASSIGN is answered, and ENABLE and SELECT change
    nothing *)
Lemma logged_on_silent : forall f p n, n_selected n = true -> n_assigned n = true -> ~ 224 <= nth 1 p 0 < 240 ->
  reply f p n = None /\ hear p n = n.
Proof.
  intros f p n Hs Ha Hk. unfold reply, hear. cbv zeta. rewrite Hs, Ha. cbn [orb negb]. rewrite andb_false_r. unfold hear_select, hear_enable.
  rewrite Hs, Ha. cbn [negb]. rewrite !andb_false_r. cbn [andb].
  destruct (negb (intact p)); [split; reflexivity|]. cbn [orb]. destruct (nth 1 p 0 <? 208) eqn:E1; [rewrite orb_true_r; split; reflexivity|].
  rewrite orb_false_r. destruct (nth 1 p 0 <? 224) eqn:E2; [destruct (negb _); split; reflexivity|]. replace (nth 1 p 0 <? 240) with false by (symmetry; lia).
  destruct (negb _); split; reflexivity.
Qed.

Lemma called_up : forall f n sel asg A, call_up n (sel, asg, A) ->
  reply f sel n = Some (select_answer (aval (n_own n))) /\ reply f asg (hear sel n) = Some assign_answer /\
  logged_on A (hear asg (hear sel n)) /\ n_conf (hear asg (hear sel n)) = n_conf n /\
  n_conf (hear sel n) = n_conf n /\
  (firstn 4 (skipn 3 sel) = did (n_conf n) /\ 208 <= nth 1 sel 0 < 240) /\ (firstn 4 (skipn 3 asg) = did (n_conf n) /\ 208 <= nth 1 asg 0 < 240).
Proof.
  intros f n sel asg A (a & b & He & Hna & Hs & Us & Ha & Ua & Hu & HA).
  destruct (says_id _ _ Hs) as [S1 S2]. destruct (says_assign_at _ _ _ _ Ha) as (A1 & A2 & A3 & A4).
  apply undamaged_spec in Us, Ua. change (undamaged_b sel) with (intact sel) in Us. change (undamaged_b asg) with (intact asg) in Ua.
  assert (hear sel n = Node (n_view n) (n_own n) (n_consist n) (n_logon n) (n_conf n) true (n_assigned n) (n_store n) (n_known n) (n_new n)) as Hh.
  { unfold hear. rewrite Us. cbn [negb]. replace (nth 1 sel 0 <? 208) with false by (symmetry; lia).
    replace (nth 1 sel 0 <? 224) with true by (symmetry; lia). unfold hear_select. rewrite S1, He, Hna, same_id_refl. reflexivity. }
  rewrite Hh. set (n1 := Node _ _ _ _ _ true _ _ _ _).
  split.
  { unfold reply. cbv zeta. rewrite Us, He, S1, same_id_refl, Hna. replace (nth 1 sel 0 <? 208) with false by (symmetry; lia).
    replace (nth 1 sel 0 <? 224) with true by (symmetry; lia). reflexivity. }
  split.
  { unfold reply. cbv zeta. rewrite A3, A4, Hu. unfold n1. cbn [n_conf n_assigned]. rewrite Ua, He, A1, same_id_refl. replace (nth 1 asg 0 <? 208) with false by (symmetry; lia).
    replace (nth 1 asg 0 <? 224) with false by (symmetry; lia). replace (nth 1 asg 0 <? 240) with true by (symmetry; lia). reflexivity. }
  assert (hear asg n1 = Node (n_view n) (if negb (aval A =? 0) && (a <? 192) then A else n_own n) (no_number (n_consist n)) A (n_conf n)
      true true true (n_known n) (n_new n)) as ->.
  { unfold hear. rewrite Ua. cbn [negb]. replace (nth 1 asg 0 <? 208) with false by (symmetry; lia).
    replace (nth 1 asg 0 <? 224) with false by (symmetry; lia). replace (nth 1 asg 0 <? 240) with true by (symmetry; lia).
    rewrite A1, A3, A4, Hu. unfold hear_assign, n1. cbn [n_conf]. rewrite He, same_id_refl. reflexivity. }
  split; [repeat split; exact HA|]. split; [reflexivity|]. split; [reflexivity|]. repeat split; auto; lia.
Qed.

Lemma others : forall f p id ns, 208 <= nth 1 p 0 < 240 -> firstn 4 (skipn 3 p) = id -> Forall (fun n => did (n_conf n) <> id) ns ->
  map (hear p) ns = ns /\ replies f p ns = [].
Proof.
  induction ns as [|n ns IH]; intros Hr Hid H; [split; reflexivity|]. inversion H as [|? ? Hn Hns]; subst.
  destruct (not_addressed f p _ n Hr eq_refl Hn) as [K1 K2]. destruct (IH Hr eq_refl Hns) as [K3 K4].
  cbn [map replies flat_map]. rewrite K1, K3, K2. split; [reflexivity|exact K4].
Qed.

Definition ids (ns : list node) : list (list Z) := map (fun n => did (n_conf n)) ns.

Lemma replies_app : forall f p a b, replies f p (a ++ b) = replies f p a ++ replies f p b.
Proof. intros. unfold replies. apply flat_map_app. Qed.

Lemma roll_gen : forall f post xs pre, Forall2 call_up post xs -> NoDup (ids (pre ++ post)) ->
  roll_call f (flat_map called xs) (pre ++ post) = flat_map (fun n => [[select_answer (aval (n_own n))]; [assign_answer]]) post /\
  exists post', all_hear (flat_map called xs) (pre ++ post) = pre ++ post' /\ Forall2 (fun n x => logged_on (snd x) n) post' xs.
Proof.
  intros f. induction post as [|n post IH]; intros xs pre H Hd; inversion H as [|? x ? xs' Hx Hxs]; subst.
  - split; [reflexivity|]. exists []. split; [reflexivity|constructor].
  - destruct x as [[sel asg] A]. destruct (called_up f n sel asg A Hx) as (R1 & R2 & L & C1 & C2 & [I1 I2] & [I3 I4]).
    unfold ids in Hd. rewrite map_app in Hd. cbn [map] in Hd. pose proof (NoDup_remove_2 _ _ _ Hd) as Hni.
    assert (Forall (fun n' => did (n_conf n') <> did (n_conf n)) pre /\ Forall (fun n' => did (n_conf n') <> did (n_conf n)) post) as [Fp Fq].
    { split; apply Forall_forall; intros n' Hin Heq; apply Hni; apply in_or_app; [left|right]; rewrite <- Heq;
        apply (in_map (fun n => did (n_conf n))) in Hin; exact Hin. }
    destruct (others f sel _ pre I2 I1 Fp) as [P1 P2]. destruct (others f sel _ post I2 I1 Fq) as [P3 P4].
    destruct (others f asg _ pre I4 I3 Fp) as [Q1 Q2]. destruct (others f asg _ post I4 I3 Fq) as [Q3 Q4].
    cbn [flat_map called fst snd List.app roll_call]. unfold all_hear. cbn [flat_map called fst snd List.app fold_left].
    rewrite !map_app. cbn [map]. rewrite P1, P3, Q1, Q3, !replies_app, P2, Q2.
    assert (replies f sel (n :: post) = [select_answer (aval (n_own n))]) as -> by (unfold replies in *; cbn [flat_map]; rewrite R1, P4; reflexivity).
    assert (replies f asg (hear sel n :: post) = [assign_answer]) as -> by (unfold replies in *; cbn [flat_map]; rewrite R2, Q4; reflexivity).
    assert (pre ++ hear asg (hear sel n) :: post = (pre ++ [hear asg (hear sel n)]) ++ post) as -> by (rewrite <- app_assoc; reflexivity).
    assert (NoDup (ids ((pre ++ [hear asg (hear sel n)]) ++ post))) as Hd'.
    { rewrite <- app_assoc. unfold ids. cbn [List.app]. rewrite map_app. cbn [map]. rewrite C1. exact Hd. }
    destruct (IH xs' (pre ++ [hear asg (hear sel n)]) Hxs Hd') as [K1 (post' & K2 & K3)].
    split; [do 2 f_equal; exact K1|]. unfold all_hear in K2. exists (hear asg (hear sel n) :: post'). split.
    + etransitivity; [exact K2|]. rewrite <- app_assoc. reflexivity.
    + constructor; [exact L|exact K3].
Qed.

Lemma roll_called : forall f ns xs, Forall2 call_up ns xs -> NoDup (map (fun n => did (n_conf n)) ns) ->
  roll_call f (flat_map called xs) ns = flat_map (fun n => [[select_answer (aval (n_own n))]; [assign_answer]]) ns /\
  Forall2 (fun n x => logged_on (snd x) n) (all_hear (flat_map called xs) ns) xs.
Proof.
  intros f ns xs H Hd. destruct (roll_gen f ns xs [] H Hd) as [K1 (post' & K2 & K3)]. cbn [List.app] in *. rewrite K2. auto.
Qed.
