From Verif Require Import Prelude Address SpecCodec RxState Rx SpecRx SpecExec SpecConf SpecCv SpecLogon SpecBidi RxBitProofs4 BidiProofs9 SpecStation
  StationProofs2 SpecLayout LayoutProofs LayoutProofs4 SpecDialog DialogProofs3 SpecTraffic.

(** ** The last packet depends on the track alone *)

Fixpoint track_last (ts : list Z) (hs : list bool) (p : option (list Z)) : option (list Z) :=
  match ts with
  | [] => p
  | t :: r =>
      match half_bit t with
      | None => track_last r hs p
      | Some b =>
          match reading (hs ++ [b]) with
          | Listening => track_last r (hs ++ [b]) p
          | Lost => track_last r [] p
          | Packet bs => track_last r [] (if valid_packet bs then Some bs else None)
          end
      end
  end.
Definition durations (os : list op) : list Z := flat_map (fun o => match o with OReceive t => [t] | _ => [] end) os.

Lemma last_heard_track : forall os l p, never_full os l -> ~ In ODisable os ->
  last_heard os l p = track_last (durations os) (l_heard l) p.
Proof.
  induction os as [|o os IH]; intros l p Hn Hd; [reflexivity|].
  assert (Hq : (length (l_queue l) < 31)%nat) by exact (Hn [] (o :: os) eq_refl).
  assert (Hn' : never_full os (listen o l)).
  { intros a b ->. exact (Hn (o :: a) b eq_refl). }
  assert (Hd' : ~ In ODisable os) by (intros X; apply Hd; right; exact X).
  cbn [last_heard]. rewrite (IH _ _ Hn' Hd'). clear IH Hn'.
  destruct o as [| | |t| |ds| | |i v]; cbn [listen completed rejected durations flat_map List.app l_heard]; try reflexivity.
  - exfalso. apply Hd. left. reflexivity.
  - fold durations. cbn [track_last]. destruct (half_bit t) as [b|]; [|reflexivity].
    unfold hear. cbv zeta. replace (length (l_queue l) =? 31)%nat with false by (symmetry; apply Nat.eqb_neq; lia).
    rewrite andb_false_r. destruct (reading (l_heard l ++ [b])) as [| |bs]; try reflexivity.
    destruct (valid_packet bs); reflexivity.
  - destruct (l_fresh l); reflexivity.
Qed.

Lemma durations_filter : forall os os', filter is_receive os = filter is_receive os' -> durations os = durations os'.
Proof.
  assert (K : forall os, durations os = durations (filter is_receive os)).
  { induction os as [|o os IH]; [reflexivity|]. destruct o; cbn [filter is_receive durations flat_map List.app] in *; try exact IH.
    fold durations. f_equal. exact IH. }
  intros os os' H. rewrite (K os), (K os'), H. reflexivity.
Qed.

Lemma same_last : forall os os', filter is_receive os = filter is_receive os' -> executes_every 76 os -> executes_every 76 os' ->
  ~ In ODisable os -> ~ In ODisable os' -> last_heard os listener0 None = last_heard os' listener0 None.
Proof.
  intros os os' H H1 H2 D1 D2. rewrite !last_heard_track; try assumption; try (apply prompt_enough; assumption).
  rewrite (durations_filter _ _ H). reflexivity.
Qed.

Lemma last_no_logon : forall os l p0 p, logons os l = [] -> (forall q, p0 = Some q -> is_logon q = false) ->
  last_heard os l p0 = Some p -> is_logon p = false.
Proof.
  induction os as [|o os IH]; intros l p0 p Hl H0 H; cbn [last_heard logons] in *; [exact (H0 p H)|].
  apply app_eq_nil in Hl. destruct Hl as [Hl1 Hl2]. apply (IH _ _ _ Hl2) in H; [exact H|].
  intros q Hq. destruct (completed o l) as [bs|].
  - injection Hq as <-. destruct (is_logon bs); [discriminate Hl1|reflexivity].
  - destruct (rejected o l); [discriminate Hq|exact (H0 q Hq)].
Qed.

(** ** Who may speak *)
Lemma speaks_pointwise : forall c c' n, (forall a, c a = c' a) -> speaks_for c n = speaks_for c' n.
Proof.
  intros c c' n H. unfold speaks_for, own_address, consist_address, cv.
  rewrite !(H (29 - 1)), (H (17 - 1)), (H (18 - 1)), !(H (1 - 1)), !(H (20 - 1)), !(H (19 - 1)). reflexivity.
Qed.

Section One.
  Context {I : Type}.
  Variable E : Env I.
  Variable m : I -> Z -> Z.
  Variable able : access -> Prop.
  Hypothesis Hk : keeps_cvs able E m.

  Lemma speaker : forall os i s es u s' es', run E (OInit :: os) (st0 i) = Ok (tt, s, es) -> logons os listener0 = [] -> on_time os ->
    Forall (allowed able) (snd (obey_all (e_east_west E) (SpecRx.taken os listener0) (new_view (m i)))) ->
    biDiChannel2 E s = Ok (u, s', es') -> sent es' <> [] ->
    exists p, last_heard os listener0 None = Some p /\
      (atyp (address_of p) = ATBroadcast \/ is_logon p = true \/ speaks_for (m (app s)) (aval (address_of p)) = true).
  Proof.
    intros os i s es u s' es' H Hl Ho Ha Hb Hs.
    destruct (dialogue E m able Hk os i s es H Hl Ho Ha) as [(_ & _ & HS & _) [HW _]].
    destruct (converse (e_east_west E) os listener0 None (new_view (m i), None)) as [v w]. cbn [fst] in HS.
    destruct (addressed_run E i (OInit :: os) s es u s' es' H Hb Hs) as (p & Hp & Hm).
    exists p. split; [exact Hp|]. destruct Hm as [Hm|[Hm|[Hty Hm]]]; [auto| |].
    - right. left. destruct p as [|b r]; [discriminate Hm|]. cbn [address_of] in Hm. cbn [is_logon].
      assert (Hc : first_byte_class b = ATLogon) by (destruct (first_byte_class b); cbn [atyp] in Hm; congruence).
      revert Hc. clear. unfold first_byte_class. repeat (match goal with |- context [if ?x then _ else _] => destruct x eqn:? end; try discriminate).
      destruct (Z.to_nat (b - 253)) as [|[|[|n]]] eqn:En; try discriminate; [intros _; lia|]. destruct n; discriminate.
    - right. right. destruct HS as (Hpt & (HA1 & HA2 & HA3) & _).
      rewrite (speaks_pointwise _ _ _ Hpt). unfold speaks_for. apply orb_true_iff.
      destruct Hm as [Hm|[Hco Hm]].
      + left. assert (answering_as s = own_address (v_cvs v)) as Hown by (unfold answering_as, is_assigned; rewrite HW; exact HA1).
        rewrite Hown in Hm. destruct Hm as [Hv Ht]. unfold has_number. rewrite Hv, Z.eqb_refl.
        destruct (atyp (own_address (v_cvs v))); try reflexivity; destruct Ht as [Ht|[_ Ht]]; cbn [In] in *;
          try (rewrite Ht in Hty; intuition discriminate); intuition discriminate.
      + right. rewrite HA2 in Hm. destruct Hm as [Hv _]. rewrite Hv, Z.eqb_refl, andb_true_r.
        unfold consist_on in Hco. assert (Hq : ch2_consist_enabled (r_conf (rxs s)) = ch2_consist_enabled (switches (v_cvs v))).
        { change (ch2_consist_enabled (r_conf (rxs s))) with (ch2_consist_enabled (upd_did [] (r_conf (rxs s)))). rewrite HA3. reflexivity. }
        rewrite Hq in Hco. unfold switches in Hco. cbn [ch2_consist_enabled] in Hco. exact Hco.
  Qed.
End One.

(** Two decoders at the same track: in no cutout both speak *)
Theorem one_speaker : forall (I J : Type) (E : Env I) (F : Env J) (m : I -> Z -> Z) (k : J -> Z -> Z) able1 able2,
  keeps_cvs able1 E m -> keeps_cvs able2 F k ->
  forall os1 os2 i j s1 es1 s2 es2, run E (OInit :: os1) (st0 i) = Ok (tt, s1, es1) -> run F (OInit :: os2) (st0 j) = Ok (tt, s2, es2) ->
  filter is_receive os1 = filter is_receive os2 -> executes_every 76 os1 -> executes_every 76 os2 -> ~ In ODisable os1 -> ~ In ODisable os2 ->
  on_time os1 -> on_time os2 -> logons os1 listener0 = [] -> logons os2 listener0 = [] ->
  Forall (allowed able1) (snd (obey_all (e_east_west E) (SpecRx.taken os1 listener0) (new_view (m i)))) ->
  Forall (allowed able2) (snd (obey_all (e_east_west F) (SpecRx.taken os2 listener0) (new_view (k j)))) ->
  (forall n, speaks_for (m (app s1)) n && speaks_for (k (app s2)) n = false) ->
  forall s1' e1 s2' e2, biDiChannel2 E s1 = Ok (tt, s1', e1) -> biDiChannel2 F s2 = Ok (tt, s2', e2) ->
  sent e1 = [] \/ sent e2 = [] \/
  exists p, last_heard os1 listener0 None = Some p /\ last_heard os2 listener0 None = Some p /\ nth 0 p 0 = 0.
Proof.
  intros I J E F m k able1 able2 K1 K2 os1 os2 i j s1 es1 s2 es2 R1 R2 Hf X1 X2 D1 D2 O1 O2 L1 L2 A1 A2 Hdis s1' e1 s2' e2 B1 B2.
  destruct (sent e1) as [|x xs] eqn:S1; [auto|]. destruct (sent e2) as [|y ys] eqn:S2; [auto|]. right. right.
  destruct (speaker E m able1 K1 os1 i s1 es1 tt s1' e1 R1 L1 O1 A1 B1) as (p & P1 & P2); [congruence|].
  destruct (speaker F k able2 K2 os2 j s2 es2 tt s2' e2 R2 L2 O2 A2 B2) as (q & Q1 & Q2); [congruence|].
  pose proof (same_last os1 os2 Hf X1 X2 D1 D2) as He. assert (q = p) by congruence. subst q. exists p. split; [exact P1|]. split; [exact Q1|].
  assert (Hng : is_logon p = false).
  { apply (last_no_logon os1 listener0 None p L1); [discriminate|exact P1]. }
  assert (Hbr : atyp (address_of p) = ATBroadcast -> nth 0 p 0 = 0).
  { destruct p as [|b r]; [discriminate|]. cbn [address_of nth]. intros Hm.
    assert (Hc : first_byte_class b = ATBroadcast) by (destruct (first_byte_class b); cbn [atyp] in Hm; congruence).
    revert Hc. clear. unfold first_byte_class. destruct (b =? 0) eqn:Eb; [lia|].
    repeat (match goal with |- context [if ?x then _ else _] => destruct x eqn:? end; try discriminate).
    destruct (Z.to_nat (b - 253)) as [|[|[|n]]]; try discriminate. destruct n; discriminate. }
  destruct P2 as [P2|[P2|P2]]; [exact (Hbr P2)|congruence|]. destruct Q2 as [Q2|[Q2|Q2]]; [exact (Hbr Q2)|congruence|].
  specialize (Hdis (aval (address_of p))). rewrite P2, Q2 in Hdis. discriminate Hdis.
Qed.
