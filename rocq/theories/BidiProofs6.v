(** BiDi: data points offered by the application *)
From Verif Require Import Prelude Address Instruction Datagram Speed Packets Backoff RxState Rx ZBits RxLogic RxInv SpecCodec CodecProofs CodecProofs2
  SpecRx RxBitProofs SpecExec ExecProofs SpecConf SpecCv CvProofs SaneProofs SpecLogon LogonProofs LogonProofs2 LogonProofs3 LogonProofs4 SpecBidi BidiProofs BidiProofs2 BidiProofs3 BidiProofs4 BidiProofs5.

Lemma convert_point : forall a, in_range a -> dyn_convert a = point_of a /\ byte (fst (point_of a)) /\ 0 <= snd (point_of a) < 64.
Proof.
  intros [d x|d|d|d|d] H; cbn [in_range] in H; unfold dyn_convert, point_of, byte, u8 in *.
  - cbn [fst snd]. rewrite Z.mod_small by lia. split; [reflexivity|lia].
  - destruct (Z.ltb_spec d 256).
    + replace (d <? 512) with true by lia. cbn [fst snd]. rewrite Z.mod_small by lia. split; [reflexivity|lia].
    + destruct (Z.ltb_spec d 512); cbn [fst snd].
      * rewrite Z.mod_small by lia. rewrite Z.min_l by lia. split; [reflexivity|lia].
      * change (255 mod 256) with 255. rewrite Z.min_r by lia. split; [reflexivity|lia].
  - unfold lerp. cbn [fst snd]. change (205 - -50) with 255. change (255 - 0) with 255. rewrite Z.quot_mul by lia.
    rewrite Z.mod_small by lia. split; [f_equal; lia|lia].
  - cbn [fst snd]. rewrite Z.mod_small by lia. split; [reflexivity|lia].
  - cbn [fst snd]. unfold i16.
    rewrite (Z.mod_small (d - 5000 + 32768)) by lia. replace (d - 5000 + 32768 - 32768) with (d - 5000) by lia.
    rewrite Z.quot_div_nonneg by lia. assert (0 <= Z.max 0 (d - 5000) / 100 < 256) by (split; [apply Z.div_pos; lia|apply Z.div_lt_upper_bound; lia]).
    rewrite Z.mod_small by lia. split; [reflexivity|lia].
Qed.

Lemma F2_length : forall A B (R : A -> B -> Prop) l l', Forall2 R l l' -> length l = length l'.
Proof. induction 1; cbn [length]; congruence. Qed.

Section Data.
  Context {I : Type} (E : Env I).
  Implicit Types s : st I.

  Definition with_data (q : list (list Z)) s : st I := Mk_st (set_dyn_deque q (rxs s)) (app s) (pending s).
  Definition with_block (b : bool) s : st I := Mk_st (set_block_dyn b (rxs s)) (app s) (pending s).
  Lemma with_data_same : forall s, with_data (data_waiting s) s = s.
  Proof. intros [[? ? ? ? ? ? [] ? ?] ? ?]. reflexivity. Qed.
  Lemma with_block_same : forall s, with_block (data_blocked s) s = s.
  Proof. intros [[? ? ? ? ? ? [] ? ?] ? ?]. reflexivity. Qed.
  Lemma with_data_twice : forall q q' s, with_data q (with_data q' s) = with_data q s.
  Proof. intros q q' [[? ? ? ? ? ? [] ? ?] ? ?]. reflexivity. Qed.

  Lemma push_run : forall s d x, byte d -> 0 <= x < 64 -> (length (data_waiting s) <= 7)%nat ->
    exists new, Forall2 says_point (if channel2_on s then firstn (7 - length (data_waiting s)) [(d, x)] else []) new /\
    dyn_push d x s = Ok (tt, with_data (data_waiting s ++ new) s, []).
  Proof.
    intros s d x Hd Hx Hl. unfold dyn_push. rewrite bind_get. fold (data_waiting s). unfold channel2_on. change rx_bidi_deque_size with 7%nat.
    destruct (ch2_data_enabled (r_conf (rxs s))); cbn [negb orb].
    - destruct (Nat.eqb_spec (length (data_waiting s)) 7) as [El|El].
      + exists []. rewrite El. change (7 - 7)%nat with 0%nat. cbn [firstn]. split; [constructor|]. rewrite app_nil_r, with_data_same. reflexivity.
      + unfold byte in Hd. destruct (id_carries B18 7 (64 * d + x)) as (cs & H1 & H2); [lia|change (2 ^ id_bits B18) with 16384; lia|].
        exists [cs]. replace (7 - length (data_waiting s))%nat with (S (7 - length (data_waiting s) - 1)) by lia. rewrite firstn_cons, firstn_nil. split.
        * constructor; [|constructor]. unfold says_point. cbn [fst snd]. change (datagram_size B18) with 3%nat in H2. change (2 ^ id_bits B18) with 16384 in H2.
          replace (16384 * 7 + 64 * d + x) with (7 * 16384 + (64 * d + x)) by lia. exact H2.
        * rewrite Z.shiftl_mul_pow2, lor_add by (change (2 ^ 6) with 64; lia). replace (d * 2 ^ 6 + x) with (64 * d + x) by (change (2 ^ 6) with 64; lia).
          rewrite H1, ExecProofs.bind_lift. reflexivity.
    - exists []. split; [constructor|]. rewrite app_nil_r, with_data_same. reflexivity.
  Qed.

  Lemma all_run : forall ds s, Forall in_range ds -> (length (data_waiting s) <= 7)%nat ->
    exists new, Forall2 says_point (if channel2_on s then firstn (7 - length (data_waiting s)) (map point_of ds) else []) new /\
    dyn_all ds s = Ok (tt, with_data (data_waiting s ++ new) s, []).
  Proof.
    induction ds as [|a ds IH]; intros s Hd Hl.
    - exists []. cbn [map]. rewrite firstn_nil. split; [destruct (channel2_on s); constructor|]. rewrite app_nil_r, with_data_same. reflexivity.
    - inversion Hd as [|? ? Ha Hd']; subst.
      destruct (convert_point a Ha) as (Hc & Hb & Hx).
      destruct (push_run s _ _ Hb Hx Hl) as (n1 & F1 & R1). cbn [dyn_all]. rewrite Hc. unfold bind. rewrite R1.
      assert (L1 : length n1 = if channel2_on s then Nat.min (7 - length (data_waiting s)) 1 else 0%nat).
      { apply F2_length in F1. rewrite <- F1. destruct (channel2_on s); [rewrite firstn_length; reflexivity|reflexivity]. }
      destruct (IH (with_data (data_waiting s ++ n1) s) Hd') as (n2 & F2 & R2).
      { change (data_waiting (with_data (data_waiting s ++ n1) s)) with (data_waiting s ++ n1). rewrite app_length, L1. destruct (channel2_on s); lia. }
      rewrite R2. change (data_waiting (with_data (data_waiting s ++ n1) s)) with (data_waiting s ++ n1) in *.
      change (channel2_on (with_data (data_waiting s ++ n1) s)) with (channel2_on s) in F2.
      exists (n1 ++ n2). rewrite with_data_twice, <- app_assoc. split; [|reflexivity].
      destruct (channel2_on s); [|inversion F1; inversion F2; constructor].
      cbn [map]. rewrite app_length, L1 in F2.
      destruct (7 - length (data_waiting s))%nat as [|k] eqn:Ek.
      + cbn [firstn] in *. inversion F1; subst. replace (7 - (length (data_waiting s) + Nat.min 0 1))%nat with 0%nat in F2 by lia. exact F2.
      + replace (7 - (length (data_waiting s) + Nat.min (S k) 1))%nat with k in F2 by lia. rewrite firstn_cons in *.
        rewrite firstn_nil in F1. change (point_of a :: firstn k (map point_of ds)) with ([point_of a] ++ firstn k (map point_of ds)).
        apply Forall2_app; [|exact F2]. rewrite <- surjective_pairing in F1. exact F1.
  Qed.

  Lemma datagram_run : forall s ds, Forall in_range ds -> (length (data_waiting s) <= 7)%nat -> byte (quality s) ->
    exists new, Forall2 says_point (accepted s ds) new /\
    datagram ds s = Ok (tt, with_data (data_waiting s ++ new) (with_block (blocked_after s) s), []).
  Proof.
    intros s ds Hd Hl Hq. unfold datagram, accepted, blocked_after. rewrite bind_get. change rx_bidi_deque_size with 7%nat. fold (data_waiting s).
    destruct (Nat.eqb_spec (length (data_waiting s)) 7) as [E7|E7].
    - rewrite E7. exists []. cbn [Nat.sub firstn]. split; [destruct (channel2_on s && negb (data_blocked s)); constructor|].
      rewrite app_nil_r. unfold bind, modify, get. cbn [rxs]. cbn [r_bidi set_block_dyn block_dyn set_r_bidi upd_block_dyn].
      change (Nat.eqb 7 7) with true. cbn iota. change (data_waiting s) with (data_waiting (with_block true s)). rewrite with_data_same. reflexivity.
    - destruct (length (data_waiting s)) as [|n] eqn:En.
      + cbn [Nat.eqb]. apply length_zero_iff_nil in En. 
        set (s1 := with_block false s).
        assert (B : bind (modify (set_block_dyn false)) (fun _ => dyn_push (qos (r_cnt (rxs s))) 7) s = dyn_push (quality s) 7 s1).
        { unfold bind, modify. fold (with_block false s). fold s1. destruct (dyn_push (qos (r_cnt (rxs s))) 7 s1) as [[[u s2] e2]|] eqn:Ep; unfold quality; rewrite Ep; reflexivity. }
        assert (D1 : data_waiting s1 = []) by exact En.
        destruct (push_run s1 (quality s) 7 Hq) as (n1 & F1 & R1); [lia|rewrite D1; cbn; lia|].
        unfold bind at 1. rewrite B, R1, bind_get. rewrite D1 in *. cbn [List.app length] in *.
        change (channel2_on s1) with (channel2_on s) in F1.
        change (block_dyn (r_bidi (rxs (with_data n1 s1)))) with false. cbn iota.
        assert (L1 : length n1 = if channel2_on s then 1%nat else 0%nat).
        { apply F2_length in F1. rewrite <- F1. destruct (channel2_on s); reflexivity. }
        destruct (all_run ds (with_data n1 s1) Hd) as (n2 & F2 & R2).
        { change (data_waiting (with_data n1 s1)) with n1. rewrite L1. destruct (channel2_on s); lia. }
        rewrite R2. change (data_waiting (with_data n1 s1)) with n1 in *. change (channel2_on (with_data n1 s1)) with (channel2_on s) in F2.
        exists (n1 ++ n2). rewrite En, with_data_twice. split; [|reflexivity].
        destruct (channel2_on s); [|inversion F1; inversion F2; constructor].
        rewrite firstn_cons. rewrite L1 in F2. change (7 - 1)%nat with 6%nat in F2. change (7 - 0)%nat with 7%nat in F1. rewrite firstn_cons, firstn_nil in F1.
        change ((quality s, 7) :: firstn 6 (map point_of ds)) with ([(quality s, 7)] ++ firstn 6 (map point_of ds)). apply Forall2_app; assumption.
      + cbn [Nat.eqb]. unfold bind at 1. cbn [ret]. rewrite bind_get. fold (data_blocked s).
        replace (n =? 6)%nat with false by (symmetry; apply Nat.eqb_neq; lia). rewrite with_block_same.
        destruct (data_blocked s).
        * exists []. rewrite andb_false_r. split; [constructor|]. rewrite app_nil_r, with_data_same. reflexivity.
        * destruct (all_run ds s Hd) as (n2 & F2 & R2); [lia|]. rewrite R2. exists n2. rewrite andb_true_r, En in *. split; [exact F2|reflexivity].
  Qed.
End Data.
