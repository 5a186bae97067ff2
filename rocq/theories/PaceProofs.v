(** How often execute() has to be called when packets are known to be apart *)
From Verif Require Import Prelude Address ZBits SpecCodec SpecTx TxProofs Tx RxState Rx CodecProofs CodecProofs2 RxLogic SpecRx
  RxBitProofs RxBitProofs2 RxBitProofs3 RxBitProofs4 RxBitProofs5 SpecExec SpecConf SpecCv SpecLogon SpecBidi SpecSafe SafeProofs2
  SpecLayout LayoutProofs4 LayoutProofs5 LayoutProofs6 SpecLayout2 LayoutProofs7 LayoutProofs8 ReplProofs ReplProofs3
  SpecStation StationProofs StationProofs2 AudibleProofs SpecPace.

Section Weights.
  Variable wt : Z -> Z.
  Hypothesis wt_pos : forall t, 0 <= wt t.

  Definition total (ts : list Z) : Z := fold_right (fun t n => wt t + n) 0 ts.

  Lemma total_app : forall a b, total (a ++ b) = total a + total b.
  Proof. clear wt_pos. induction a as [|x a IH]; intros b; cbn [List.app total fold_right]; [reflexivity|]. fold (total (a ++ b)) (total a). rewrite IH. lia. Qed.
  Lemma total_pos : forall a, 0 <= total a.
  Proof. induction a as [|x a IH]; cbn [total fold_right]; [lia|]. fold (total a). specialize (wt_pos x). lia. Qed.

  (** Weights from packet to packet, and what is left *)
  Fixpoint gaps (f : fsm) (w : Z) (ts : list Z) : list Z :=
    match ts with
    | [] => []
    | t :: r =>
        match half_bit t with
        | None => gaps f (w + wt t) r
        | Some b =>
            match snd (machine_hb false f b) with
            | AAccept => (w + wt t) :: gaps (fst (mstep f b)) 0 r
            | _ => gaps (fst (mstep f b)) (w + wt t) r
            end
        end
    end.
  Fixpoint left_over (f : fsm) (w : Z) (ts : list Z) : Z :=
    match ts with
    | [] => w
    | t :: r =>
        match half_bit t with
        | None => left_over f (w + wt t) r
        | Some b =>
            match snd (machine_hb false f b) with
            | AAccept => left_over (fst (mstep f b)) 0 r
            | _ => left_over (fst (mstep f b)) (w + wt t) r
            end
        end
    end.

  Lemma fst_mrun_cons : forall b r f, fst (mrun f (b :: r)) = fst (mrun (fst (mstep f b)) r).
  Proof. intros b r f. cbn [mrun]. destruct (mstep f b) as [f1 p1]. cbn [fst]. destruct (mrun f1 r). reflexivity. Qed.

  Lemma gaps_app : forall a f w b, gaps f w (a ++ b) = gaps f w a ++ gaps (fst (mrun f (halves_of a))) (left_over f w a) b.
  Proof.
    induction a as [|t a IH]; intros f w b; [reflexivity|]. cbn [List.app gaps left_over].
    unfold halves_of. cbn [flat_map]. fold (halves_of a). destruct (half_bit t) as [x|]; cbn [List.app]; [|apply IH].
    rewrite fst_mrun_cons. destruct (snd (machine_hb false f x)); rewrite IH; reflexivity.
  Qed.
  Lemma left_app : forall a f w b, left_over f w (a ++ b) = left_over (fst (mrun f (halves_of a))) (left_over f w a) b.
  Proof.
    induction a as [|t a IH]; intros f w b; [reflexivity|]. cbn [List.app left_over].
    unfold halves_of. cbn [flat_map]. fold (halves_of a). destruct (half_bit t) as [x|]; cbn [List.app]; [|apply IH].
    rewrite fst_mrun_cons. destruct (snd (machine_hb false f x)); apply IH.
  Qed.

  Lemma gaps_none : forall a f w, arun f (halves_of a) = [] -> gaps f w a = [] /\ left_over f w a = w + total a.
  Proof.
    induction a as [|t a IH]; intros f w H; cbn [gaps left_over total fold_right]; [split; [reflexivity|lia]|]. fold (total a).
    unfold halves_of in H. cbn [flat_map] in H. fold (halves_of a) in H. destruct (half_bit t) as [x|]; cbn [List.app] in H.
    2: { destruct (IH f (w + wt t) H) as [H1 H2]. split; [exact H1|lia]. }
    cbn [arun] in H. unfold mstep in *. destruct (machine_hb false f x) as [f' act]. cbn [snd].
    destruct act; cbn [List.app] in H; try discriminate H; cbn [fst] in *;
      match type of H with arun ?g _ = _ => destruct (IH g (w + wt t) H) as [H1 H2] end; (split; [exact H1|lia]).
  Qed.

  Lemma gaps_one : forall a t f w p, half_bit t = Some true -> arun f (halves_of a) = [] -> arun f (halves_of (a ++ [t])) = [p] ->
    gaps f w (a ++ [t]) = [w + total (a ++ [t])] /\ left_over f w (a ++ [t]) = 0.
  Proof.
    intros a t f w p Ht H0 H1. destruct (gaps_none a f w H0) as [G L]. rewrite gaps_app, left_app, G, L, total_app.
    rewrite halves_of_app, arun_app, H0 in H1. unfold halves_of in H1 at 2. cbn [flat_map] in H1. rewrite Ht in H1. cbn [List.app arun] in H1.
    cbn [gaps left_over total fold_right]. rewrite Ht. unfold mstep.
    destruct (machine_hb false (fst (mrun f (halves_of a))) true) as [f' act]. cbn [snd List.app].
    destruct act; try discriminate H1. split; [f_equal; lia|reflexivity].
  Qed.

  (** ** Listener and registers side by side *)

  Definition ts_of (os : list op) : list Z := flat_map (fun o => match o with OReceive t => [t] | _ => [] end) os.

  Lemma halves_ts : forall os, half_bits_in os = halves_of (ts_of os).
  Proof.
    induction os as [|o os IH]; [reflexivity|]. change (o :: os) with ([o] ++ os). rewrite half_bits_in_app, IH.
    destruct o; try reflexivity. cbn [ts_of List.app flat_map]. fold (ts_of os). unfold halves_of at 2. cbn [flat_map].
    fold (halves_of (ts_of os)). cbn [half_bits_in flat_map]. rewrite app_nil_r. reflexivity.
  Qed.

  (** Never too much since the last execute() *)
  Fixpoint attentive (W e : Z) (os : list op) : Prop :=
    match os with
    | [] => True
    | OReceive t :: r => e + wt t < W /\ attentive W (e + wt t) r
    | OExecute :: r => attentive W 0 r
    | _ :: r => attentive W e r
    end.

  Lemma spaced : forall W os l f w e, Inv (l_heard l) f -> ~ In ODisable os -> fits f (half_bits_in os) ->
    Forall (Z.le W) (gaps f w (ts_of os)) -> attentive W e os -> 0 <= w ->
    (l_fresh l = true -> l_queue l <> [] -> w = 0) -> (length (l_queue l) <= 1)%nat -> (l_queue l <> [] -> w <= e) -> 0 <= e ->
    never_full os l /\ (length (l_queue (listen_all os l)) <= 1)%nat.
  Proof.
    induction os as [|o os IH]; intros l f w e HI Hnd Hf Hg Ha Hw Hfr Hq Hqe He0.
    { split; [|exact Hq]. intros os1 os2 Ho. symmetry in Ho. apply app_eq_nil in Ho. destruct Ho as [-> _]. cbn. lia. }
    change (half_bits_in (o :: os)) with (half_bits_in ([o] ++ os)) in Hf. rewrite half_bits_in_app in Hf.
    apply fits_app in Hf. destruct Hf as [Hf1 Hf2].
    assert (Ho : o <> ODisable) by (intros ->; apply Hnd; left; reflexivity).
    destruct (listen_machine o l f HI Ho ltac:(lia) Hf1) as (HI1 & _ & Hcp).
    assert (Hnd1 : ~ In ODisable os) by (intro; apply Hnd; right; assumption).
    assert (K : forall w' e', Forall (Z.le W) (gaps (fst (mrun f (half_bits_in [o]))) w' (ts_of os)) -> attentive W e' os -> 0 <= w' ->
      (l_fresh (listen o l) = true -> l_queue (listen o l) <> [] -> w' = 0) -> (length (l_queue (listen o l)) <= 1)%nat ->
      (l_queue (listen o l) <> [] -> w' <= e') -> 0 <= e' -> never_full (o :: os) l /\ (length (l_queue (listen_all (o :: os) l)) <= 1)%nat).
    { intros w' e' G A P1 P2 P3 P4 P5.
      destruct (IH (listen o l) _ w' e' HI1 Hnd1 Hf2 G A P1 P2 P3 P4 P5) as [N Q]. split; [|exact Q].
      intros [|x os1] os2 Hos; [cbn; lia|]. cbn [List.app] in Hos. injection Hos as <- Hos. exact (N os1 os2 Hos). }
    clear IH HI1 Hf2. destruct o as [| | |t| |ds| | |i v]; cbn [attentive] in Ha;
      try (apply (K w e Hg Ha Hw); [exact Hfr|exact Hq|exact Hqe|exact He0]).
    - congruence.
    - (* receive *)
      destruct Ha as [Ha1 Ha2]. pose proof (wt_pos t) as Ht.
      cbn [ts_of flat_map List.app] in Hg. fold (ts_of os) in Hg. cbn [gaps] in Hg.
      cbn [half_bits_in flat_map List.app] in K, Hf1. cbn [listen] in K.
      destruct (half_bit t) as [b|] eqn:Et; cbn [List.app] in K, Hf1.
      2: { apply (K (w + wt t) (e + wt t)); cbn [l_fresh l_queue mrun fst]; auto; try lia; try discriminate.
           all: intros H; specialize (Hqe H); lia. }
      pose proof (machine_sim (l_heard l) f false b t HI Et) as Hs. cbv zeta in Hs.
      rewrite (machine_some _ _ _ _ Et) in Hs. rewrite andb_false_r in Hs.
      unfold hear in K. cbv zeta in K.
      replace (length (l_queue l) =? 31)%nat with false in K by (symmetry; apply Nat.eqb_neq; lia).
      rewrite andb_false_r in K. rewrite fst_mrun_cons in K. cbn [mrun fst] in K.
      destruct Hf1 as [Hf1 _]. destruct (machine_hb false f b) as [f' act] eqn:Em. cbn [fst snd] in Hs, Hf1, Hg.
      assert (Hsame : act <> AAccept -> Forall (Z.le W) (gaps (fst (mstep f b)) (w + wt t) (ts_of os))).
      { intros Hne. destruct act; try exact Hg. congruence. }
      assert (Hqe2 : l_queue l <> [] -> w + wt t <= e + wt t) by (intros H; specialize (Hqe H); lia).
      destruct (reading (l_heard l ++ [b])) as [| |bs] eqn:Er.
      + destruct Hs as [[-> _]|(Hact & _)]; [congruence|].
        apply (K (w + wt t) (e + wt t)); cbn [l_fresh l_queue]; auto; try lia; try discriminate.
        all: apply Hsame; destruct Hact as [-> | ->]; discriminate.
      + destruct Hs as (-> & _).
        apply (K (w + wt t) (e + wt t)); cbn [l_fresh l_queue]; auto; try lia; try discriminate.
        all: apply Hsame; discriminate.
      + destruct Hs as (_ & _ & Hs). destruct (valid_packet bs) eqn:Ev.
        * destruct Hs as [-> _]. inversion Hg as [|? ? Hgap Hg']; subst.
          apply (K 0 (e + wt t)); cbn [l_fresh l_queue]; auto; try lia.
          destruct (is_logon bs); [exact Hq|]. destruct (l_queue l) as [|q [|]]; [cbn; lia| |cbn [length] in Hq; lia].
          exfalso. specialize (Hqe ltac:(discriminate)). lia.
        * destruct Hs as (-> & _).
          apply (K (w + wt t) (e + wt t)); cbn [l_fresh l_queue]; auto; try lia; try discriminate.
          all: apply Hsame; discriminate.
    - (* execute *)
      cbn [listen] in K. destruct (l_fresh l) eqn:Ef.
      + apply (K w 0 Hg Ha Hw); auto; try lia; intros H; rewrite (Hfr eq_refl H); lia.
      + apply (K w 0 Hg Ha Hw); cbn [l_fresh l_queue]; try discriminate; try lia;
          destruct (l_queue l) as [|q [|]]; cbn [tl length] in *; try lia; congruence.
  Qed.

  (** ** Packet after packet *)

  (** The durations received for a packet, interval by interval *)
  Definition block (c : tx_config) (p : option (list Z)) (tss : list (list Z)) : Prop :=
    heard_as c p (map halves_of tss) /\ Forall (fun l => (length l <= 1)%nat) tss.

  (** From the end of a packet to the end of the next one it takes at least [W] *)
  Fixpoint enough (c : tx_config) (W w : Z) (ps : list (option (list Z))) (bss : list (list (list Z))) : Prop :=
    match ps, bss with
    | p :: ps, b :: bss =>
        W <= w + total (concat (firstn (length (halves c p)) b)) /\
        enough c W (total (concat (skipn (length (halves c p)) b))) ps bss
    | _, _ => True
    end.

  Lemma halves_of_concat : forall tss, halves_of (concat tss) = concat (map halves_of tss).
  Proof. induction tss as [|x r IH]; [reflexivity|]. cbn [concat map]. rewrite halves_of_app, IH. reflexivity. Qed.

  Lemma map_split : forall (A B : Type) (g : A -> B) l a b, map g l = a ++ b -> exists x y, l = x ++ y /\ map g x = a /\ map g y = b.
  Proof.
    intros A B g l a. revert l. induction a as [|z a IH]; intros l b H; [exists [], l; auto|].
    destruct l as [|u l]; [discriminate H|]. cbn [map List.app] in H.
    assert (H1 : g u = z) by congruence. assert (H2 : map g l = a ++ b) by congruence.
    destruct (IH l b H2) as (x & y & -> & Hx & Hy). exists (u :: x), y. cbn [map List.app]. rewrite H1, Hx. auto.
  Qed.

  Lemma stream_gaps : forall c W ps bss, config_ok c -> Forall2 (block c) ps bss -> Forall (fun p => packet_ok (bytes p)) ps ->
    forall n j f w, quiet j f -> (j < 20)%nat -> 0 <= w -> enough c W w ps bss -> Forall (Z.le W) (gaps f w (concat (firstn n (concat bss)))).
  Proof.
    intros c W ps bss Hc H. induction H as [|p tss ps bss Hb H IH]; intros Hps n j f w Hq Hj Hw Hen.
    { cbn [concat]. rewrite firstn_nil. constructor. }
    inversion Hps as [|? ? Hp Hps']; subst. destruct Hb as ((pre & rest & Hm & Hpre & Hrest & Hlr) & H1).
    cbn [enough] in Hen. destruct Hen as [HW Hen].
    rewrite (halves_length c p Hc), (doubled_bits c p Hc Hp) in Hen.
    rewrite (halves_length c p Hc), (doubled_bits c p Hc Hp) in HW. rewrite (doubled_bits c p Hc Hp) in Hm. cbn [tl] in Hm.
    set (hs := repeat true (2 * preamble_of c p - 1) ++ [false; false] ++ doubled (frame_bits (bytes p))) in *.
    apply map_split in Hm. destruct Hm as (A & R & -> & HA & HR).
    assert (Hpr : arun f pre = [] /\ exists j', quiet j' (fst (mrun f pre))).
    { destruct pre as [|b [|]]; [|  |cbn [length] in Hpre; lia].
      - split; [reflexivity|]. exists j. exact Hq.
      - destruct (quiet_step j f b Hq Hj) as (Q1 & Q2 & Q3). split; [exact Q2|].
        eexists. cbn [mrun]. destruct (mstep f b). cbn [fst] in *. exact Q3. }
    destruct Hpr as (P2 & j' & P3).
    assert (Hn17 : (17 <= preamble_of c p)%nat) by (destruct Hc; destruct p; cbn; lia).
    destruct (frame_run (bytes p) (2 * preamble_of c p - 1) j' _ Hp P3 ltac:(lia) ltac:(lia)) as (F1 & F2 & F3 & init & F4 & F5).
    fold hs in F1, F2, F3, F4. clearbody hs. cbn [length] in HW, Hen.
    assert (HlA : length A = S (length hs)).
    { apply (f_equal (@length _)) in HA. cbn [length] in HA. rewrite !map_length in HA. exact HA. }
    rewrite <- HlA, firstn_app, Nat.sub_diag, firstn_O, app_nil_r, firstn_all in HW.
    rewrite <- HlA, skipn_app, Nat.sub_diag, skipn_all in Hen. cbn [List.app skipn] in Hen.
    assert (HcA : forall m, halves_of (concat (firstn m A)) = concat (firstn m (pre :: map (fun b => [b]) hs))).
    { intros m. rewrite halves_of_concat, <- firstn_map, HA. reflexivity. }
    assert (Hinit : forall m, (m <= length hs)%nat -> arun f (halves_of (concat (firstn m A))) = []).
    { intros m Hm. rewrite HcA. destruct m as [|m]; [reflexivity|]. cbn [firstn concat]. rewrite firstn_map, concat_singles.
      rewrite arun_app, P2. cbn [List.app].
      assert (Hl : (m <= length init)%nat).
      { apply (f_equal (@length _)) in F4. rewrite app_length in F4. cbn [length] in F4. lia. }
      rewrite F4, firstn_map_cons by exact Hl. rewrite <- (firstn_skipn m init), arun_app in F5.
      apply app_eq_nil in F5. apply F5. }
    cbn [concat]. rewrite <- app_assoc, firstn_app, concat_app, HlA.
    destruct (Nat.ltb_spec n (S (length hs))) as [Hn|Hn].
    { replace (n - S (length hs))%nat with 0%nat by lia. rewrite firstn_O. cbn [concat]. rewrite app_nil_r.
      rewrite (proj1 (gaps_none _ f w (Hinit n ltac:(lia)))). constructor. }
    rewrite firstn_all2 by lia. set (m := (n - S (length hs))%nat).
    (* the last half bit of the packet *)
    assert (Hlast : exists A0 t, A = A0 ++ [[t]] /\ half_bit t = Some true).
    { rewrite F4 in HA. rewrite map_app, app_comm_cons in HA. apply map_split in HA. destruct HA as (A0 & B & -> & _ & HB).
      destruct B as [|z [|]]; try discriminate HB. cbn [map] in HB. assert (Hz : halves_of z = [true]) by congruence.
      rewrite !Forall_app in H1. destruct H1 as [[_ H1] _]. apply Forall_inv in H1.
      destruct z as [|t [|]]; [discriminate Hz| |cbn [length] in H1; lia]. exists A0, t. split; [reflexivity|].
      unfold halves_of in Hz. cbn [flat_map] in Hz. destruct (half_bit t) as [[]|]; try discriminate Hz. reflexivity. }
    destruct Hlast as (A0 & t & EA & Ht).
    assert (Hw2 : arun f (halves_of (concat A)) = [bytes p] /\ fst (mrun f (halves_of (concat A))) = fst (mrun (fst (mrun f pre)) hs)).
    { assert (E : halves_of (concat A) = pre ++ hs).
      { rewrite <- (firstn_all A), HcA, HlA. rewrite firstn_all2 by (cbn [length]; rewrite map_length; lia).
        cbn [concat]. rewrite concat_singles. reflexivity. }
      rewrite E, arun_app, P2, F3, fst_mrun_app. split; reflexivity. }
    destruct Hw2 as [Hacc Hst].
    assert (E0 : arun f (halves_of (concat A0)) = []).
    { assert (EA0 : A0 = firstn (length hs) A).
      { rewrite EA in HlA |- *. rewrite app_length in HlA. cbn [length] in HlA.
        rewrite firstn_app. replace (length hs - length A0)%nat with 0%nat by lia. rewrite firstn_O, app_nil_r.
        rewrite firstn_all2 by lia. reflexivity. }
      rewrite EA0. apply Hinit. lia. }
    assert (Eg : gaps f w (concat A) = [w + total (concat A)] /\ left_over f w (concat A) = 0).
    { rewrite EA in Hacc |- *. rewrite concat_app in Hacc |- *. cbn [concat List.app] in Hacc |- *.
      exact (gaps_one _ t f w _ Ht E0 Hacc). }
    destruct Eg as [Eg1 Eg2]. rewrite gaps_app, Eg1, Eg2, Hst. cbn [List.app].
    constructor; [lia|].
    rewrite firstn_app, concat_app, gaps_app.
    assert (HRl : length R = (if cfg_bidi c then 5 else 0)%nat) by (rewrite <- Hlr, <- HR, map_length; reflexivity).
    assert (Ez : exists k, halves_of (concat (firstn m R)) = repeat false k).
    { rewrite halves_of_concat, <- firstn_map, HR. apply zeros_concat. exact Hrest. }
    destruct Ez as (k & Ez).
    assert (Z3 : arun (fst (mrun (fst (mrun f pre)) hs)) (repeat false k) = []).
    { clear - F2. revert F2. generalize (fst (mrun (fst (mrun f pre)) hs)) as g. clear f.
      induction k as [|k IH]; intros g Hg; [reflexivity|].
      change (repeat false (S k)) with ([false] ++ repeat false k). rewrite arun_app.
      destruct (quiet_step 0 g false Hg ltac:(lia)) as (_ & Ha & Hb). rewrite Ha. cbn [List.app mrun].
      destruct (mstep g false). cbn [fst] in *. apply IH. exact Hb. }
    rewrite <- Ez in Z3. destruct (gaps_none _ _ 0 Z3) as [G1 G2]. rewrite G1, G2. cbn [List.app].
    rewrite Ez. destruct (fits_zeros k _ F2) as [_ Z2].
    destruct (Nat.le_gt_cases (length R) m) as [Hm|Hm].
    - rewrite (firstn_all2 R) by exact Hm.
      apply (IH Hps' _ 0%nat); [exact Z2|lia| |exact Hen]. pose proof (total_pos (concat R)). lia.
    - replace (m - length R)%nat with 0%nat by lia. rewrite firstn_O. constructor.
  Qed.

  (** ** Together *)

  Lemma block_heard : forall c ps bss, Forall2 (block c) ps bss -> Forall2 (heard_as c) ps (map (map halves_of) bss).
  Proof. intros c ps bss H. induction H as [|p b ps bss Hb H IH]; constructor; [apply Hb|exact IH]. Qed.

  (** A beginning of a track of blocks, behind at most one half bit of something else *)
  Lemma stream_audible : forall c ps bss g n, config_ok c -> Forall2 (block c) ps bss -> Forall (fun p => packet_ok (bytes p)) ps ->
    (length g <= 1)%nat -> audible (halves_of (g ++ concat (firstn n (concat bss)))) (finished c ps n).
  Proof.
    intros c ps bss g n Hc Hb Hps Hg. unfold audible. cbv zeta. set (f0 := reset_fsm _).
    assert (Hq : quiet 0 f0) by (repeat split).
    rewrite halves_of_app, fits_app, arun_app, halves_of_concat, <- firstn_map, concat_map.
    assert (Hpre : fits f0 (halves_of g) /\ arun f0 (halves_of g) = [] /\ exists j, (j < 20)%nat /\ quiet j (fst (mrun f0 (halves_of g)))).
    { assert (Hl : (length (halves_of g) <= 1)%nat).
      { destruct g as [|t [|]]; [cbn; lia| |cbn [length] in Hg; lia]. unfold halves_of. cbn [flat_map]. destruct (half_bit t); cbn; lia. }
      destruct (halves_of g) as [|b [|]]; [| |cbn [length] in Hl; lia].
      - split; [exact Logic.I|]. split; [reflexivity|]. exists 0%nat. split; [lia|exact Hq].
      - destruct (quiet_step 0 f0 b Hq ltac:(lia)) as (Q1 & Q2 & Q3). split; [exact Q1|]. split; [exact Q2|].
        exists (if b then 1 else 0)%nat. split; [destruct b; lia|]. rewrite fst_mrun_cons. exact Q3. }
    destruct Hpre as (G1 & G2 & j & Hj & G3).
    destruct (stream_run c ps _ Hc (block_heard _ _ _ Hb) Hps n j _ G3 Hj) as [S1 S2].
    rewrite G2, S2. split; [split; assumption|reflexivity].
  Qed.

  Lemma stream_paced : forall c W ps bss g n dos, config_ok c -> Forall2 (block c) ps bss -> enough c W W ps bss -> 0 <= W -> Forall (fun p => packet_ok (bytes p)) ps ->
    (length g <= 1)%nat -> ts_of dos = g ++ concat (firstn n (concat bss)) -> ~ In ODisable dos -> attentive W 0 dos ->
    never_full dos listener0 /\ (length (l_queue (listen_all dos listener0)) <= 1)%nat.
  Proof.
    intros c W ps bss g n dos Hc Hb Hen HW Hps Hg Hts Hnd Ha.
    pose proof (stream_audible c ps bss g n Hc Hb Hps Hg) as [Hf _]. rewrite <- Hts, <- halves_ts in Hf.
    set (f0 := reset_fsm _) in *. 
    assert (Hq : quiet 0 f0) by (repeat split).
    apply (spaced W dos listener0 f0 W 0); auto; try lia; try (cbn; lia);
      [unfold f0, Inv; cbn; auto| |cbn; congruence].
    rewrite Hts, gaps_app.
    assert (G : gaps f0 W g = [] /\ W <= left_over f0 W g /\ exists j, (j < 20)%nat /\ quiet j (fst (mrun f0 (halves_of g)))).
    { destruct g as [|t [|]]; [| |cbn [length] in Hg; lia].
      - split; [reflexivity|]. split; [cbn; lia|]. exists 0%nat. split; [lia|exact Hq].
      - assert (Hr : arun f0 (halves_of [t]) = [] /\ exists j, (j < 20)%nat /\ quiet j (fst (mrun f0 (halves_of [t])))).
        { unfold halves_of. cbn [flat_map]. destruct (half_bit t) as [b|]; cbn [List.app].
          - destruct (quiet_step 0 f0 b Hq ltac:(lia)) as (Q1 & Q2 & Q3). split; [exact Q2|].
            exists (if b then 1 else 0)%nat. split; [destruct b; lia|]. rewrite fst_mrun_cons. exact Q3.
          - split; [reflexivity|]. exists 0%nat. split; [lia|exact Hq]. }
        destruct Hr as [Hr1 Hr2]. destruct (gaps_none [t] f0 W Hr1) as [-> ->]. split; [reflexivity|].
        split; [pose proof (total_pos [t]); lia|exact Hr2]. }
    destruct G as (-> & G2 & j & Hj & G3). cbn [List.app].
    apply (stream_gaps c W ps bss Hc Hb Hps n j _ _ G3 Hj); [lia|].
    destruct ps as [|p ps], bss as [|b bss]; auto. cbn [enough] in *. destruct Hen as [E1 E2]. split; [lia|exact E2].
  Qed.
End Weights.
