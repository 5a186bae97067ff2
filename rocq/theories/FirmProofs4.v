(** Steps of execute() that are defined whatever interrupts have done before them. *)
From Verif Require Import Prelude Address Instruction Checksum Datagram Backoff RxState Rx ZBits RxLogic RxInv SpecCodec SpecRx RxBitProofs RxBitProofs2 RxBitProofs3 RxBitProofs4
  SpecExec ExecProofs SpecConf ConfProofs SpecCv CvProofs3 CvProofs2 SaneProofs SpecLogon LogonProofs LogonProofs2 LogonProofs3 LogonProofs4
  SpecBidi BidiProofs BidiProofs2 BidiProofs3 BidiProofs4 BidiProofs6 BidiProofs8 BidiProofs9 OfferProofs SpecSafe SafeProofs SafeProofs2 Preempt SpecPreempt
  PreemptProofs PreemptProofs2 PreemptProofs3 PreemptProofs4 StaleProofs TellProofs TellProofs3 SpecFirm FirmProofs FirmProofs2 FirmProofs3.

Section Sure.
  Context {I : Type} (E : Env I) (HE : short_cv1 E) (time : I -> Z) (HC : clock E time).
  Implicit Types s : st I.

  (** What interrupt handlers need, logon packets included *)
  Definition base (l : listener) (due : bool) s : Prop := calm l due s /\ sane (rxs s) /\ Forall whole (l_queue l).

  Lemma handler_base : forall o l s due, handler o -> base l due s -> allowed complete o l due ->
    exists b s' es, step E o s = Ok (b, s', es) /\ base (listen o l) (owes o l due) s'.
  Proof.
    intros o l s due Hh ([HR Hst Hw Hhe] & Hs & Hq) Ha.
    assert (K : exists b s' es, step E o s = Ok (b, s', es) /\ stocked (rxs s') /\ owing (owes o l due) s' /\ held (rxs s')).
    { destruct o as [| | |t| |ds| | |j v]; try contradiction.
      - destruct Ha as (A1 & A2 & ->). destruct (receive_firm E l s t HR Hs Hhe Hw (conj A1 (conj A2 eq_refl))) as (s' & es & H & H1 & H2 & H3 & _).
        exists false, s', es. cbn [step]. rewrite (done_step _ _ _ _ H). split; [reflexivity|]. split; [unfold stocked; rewrite H3; exact Hst|]. auto.
      - destruct (biDi1_total E s) as (s' & es & H). exists false, s', es. cbn [step]. rewrite (done_step _ _ _ _ H). split; [reflexivity|].
        pose proof (view_biDi1 E) as K1. assert (K2 : keeps ear (biDiChannel1 E)) by keeps_tac.
        apply K1 in H as H1. apply K2 in H as H2. unfold view in H1. injection H1 as V1 V2 V3 V4. unfold ear in H2. injection H2 as H2 _.
        unfold stocked. rewrite V1, V2. split; [exact Hst|]. split; [|exact (held_ear _ _ H2 Hhe)].
        apply (owing_view due s s'); [unfold logon_view; congruence|exact Hw].
      - destruct (biDi2_firm E s Hst) as (s' & es & H & H1); [apply Hhe; destruct HR as (_ & _ & -> & _); exact Ha|].
        exists false, s', es. cbn [step]. rewrite (done_step _ _ _ _ H). split; [reflexivity|]. split; [exact H1|].
        pose proof (ear_biDi2 E _ _ _ _ H) as X. unfold ear in X. injection X as X _.
        split; [exact (biDi2_owing _ _ _ _ _ _ Hw H)|exact (held_ear _ _ X Hhe)]. }
    destruct K as (b & s' & es & H & K1 & K2 & K3). exists b, s', es. split; [exact H|]. split; [|split].
    - constructor; try assumption. exact (step_refines E _ _ _ _ _ _ HR H).
    - exact (sane_step E o _ _ _ _ H Hs).
    - exact (queue_whole E o l s due HR Ha Hq).
  Qed.

  (** What a program relies on: the packet at the front if it is [on] one, the times, and that
      the clock has passed [t] *)
  Variables (on : Prop) (p : list Z).
  Definition grip (g : Z * Z * Z) s : Prop :=
    (on -> hd_error (r_deque (rxs s)) = Some p) /\ times (rxs s) = fst g /\ snd g <= time (app s).
  Definition in_order (g : Z * Z * Z) : Prop := snd (fst g) <= fst (fst g) <= snd g.

  Ltac ages1 :=
    lazymatch goal with
    | |- ages _ (bind _ _) => apply ages_bind; [|intro]
    | |- ages _ (ret _) => apply ages_ret
    | |- ages _ (fail _) => apply ages_fail
    | |- ages _ (lift _) => apply ages_lift
    | |- ages _ get => apply ages_get
    | |- ages _ (at_ _ _) => apply ages_at
    | |- ages _ (readCv _ _) => apply (ages_readCv E time HC)
    | |- ages _ (call _ _) => apply (ages_call E time HC)
    | |- ages _ (rand _) => apply (ages_rand E time HC)
    | |- ages _ (modify _) => apply ages_modify
    | |- ages _ (when ?b _) => unfold when
    | |- ages _ (if ?b then _ else _) => destruct b
    | |- ages _ (match ?x with _ => _ end) => destruct x
    | |- ages _ (let _ := _ in _) => cbv zeta
    | |- ages _ ?m => let h := head_of m in unfold h
    end.
  Ltac ages_tac := repeat ages1.

  Lemma handler_grip : forall o l s b s' es g, handler o -> Rl l s -> step E o s = Ok (b, s', es) -> grip g s -> grip g s'.
  Proof.
    intros o l s b s' es g Hh HR H (G1 & G2 & G3). pose proof (step_refines E _ _ _ _ _ _ HR H) as HR'.
    split.
    { intros On. specialize (G1 On). clear On. destruct HR as (_ & HQ & _). destruct HR' as (_ & HQ' & _). rewrite HQ'. rewrite HQ in G1.
      assert (A : forall q x, hd_error (l_queue l ++ q) = Some x <-> hd_error (l_queue l) = Some x) by (destruct (l_queue l); [discriminate G1|intros; reflexivity]).
      destruct o as [| | |t| |ds| | |j v]; try contradiction; cbn [listen]; try exact G1. destruct (half_bit t) as [bt|]; [|exact G1]. unfold hear.
      destruct (_ && _); [exact G1|]. destruct (reading _); try exact G1. destruct (valid_packet _); [|exact G1]. cbn [l_queue].
      destruct (is_logon _); [exact G1|apply A; exact G1]. }
    destruct o as [| | |t| |ds| | |j v]; try contradiction; cbn [step] in H; apply bind_inv in H; destruct H as (u & s1 & e1 & e2 & H & X & _); inversion X; subst; clear X.
    - pose proof (ltac:(keeps_tac) : keeps times (receive E t)) as K1. pose proof (ltac:(ages_tac) : ages time (receive E t)) as K2.
      rewrite (K1 _ _ _ _ H). specialize (K2 _ _ _ _ H). split; [exact G2|lia].
    - pose proof (ltac:(keeps_tac) : keeps times (biDiChannel1 E)) as K1. pose proof (ltac:(ages_tac) : ages time (biDiChannel1 E)) as K2.
      rewrite (K1 _ _ _ _ H). specialize (K2 _ _ _ _ H). split; [exact G2|lia].
    - pose proof (ltac:(keeps_tac) : keeps times (biDiChannel2 E)) as K1. pose proof (ltac:(ages_tac) : ages time (biDiChannel2 E)) as K2.
      rewrite (K1 _ _ _ _ H). specialize (K2 _ _ _ _ H). split; [exact G2|lia].
  Qed.

  Lemma handlers_base : forall os l s due g, Forall handler os -> base l due s -> grip g s -> by_rules complete os l due ->
    exists s' es, run E os s = Ok (tt, s', es) /\ base (listen_all os l) (owes_all os l due) s' /\ grip g s'.
  Proof.
    induction os as [|o os IH]; intros l s due g Hh C G Hb; [exists s, []; split; [reflexivity|split; [exact C|exact G]]|].
    inversion Hh as [|? ? H1 H2]; subst. destruct Hb as [B1 B2]. destruct (handler_base o l s due H1 C B1) as (b & s1 & e1 & S1 & C1).
    pose proof (handler_grip _ _ _ _ _ _ _ H1 (c_listen _ _ _ (proj1 C)) S1 G) as G1.
    destruct (IH _ _ _ _ H2 C1 G1 B2) as (s2 & e2 & S2 & C2 & G2). exists s2, (e1 ++ e2). split; [|split; [exact C2|exact G2]]. cbn [run]. unfold bind. rewrite S1, S2. reflexivity.
  Qed.

  (** Every step is defined, whatever the state is apart from what is relied on *)
  Fixpoint sure {A} (P : prog (I := I) A) (g : Z * Z * Z) (Q : A -> Z * Z * Z -> Prop) : Prop :=
    match P with
    | Done a => Q a g
    | Act B m k => keeps core m /\ keeps view m /\ forall s, grip g s -> sane (rxs s) ->
        exists b s1 e g', m s = Ok (b, s1, e) /\ grip g' s1 /\ sane (rxs s1) /\ sure (k b) g' Q
    end.
  Lemma sure_bind : forall A C (P : prog A) (k : A -> prog C) g Q R, sure P g Q -> (forall a g', Q a g' -> sure (k a) g' R) -> sure (pbind P k) g R.
  Proof.
    intros A C P k. induction P as [a|B m h IH]; intros g Q R HP Hk; [exact (Hk _ _ HP)|]. destruct HP as (H1 & H2 & H3). split; [exact H1|]. split; [exact H2|].
    intros s G Hs. destruct (H3 s G Hs) as (b & s1 & e & g' & K1 & K2 & K3 & K4). exists b, s1, e, g'. split; [exact K1|]. split; [exact K2|]. split; [exact K3|]. exact (IH b g' Q R K4 Hk).
  Qed.

  Lemma sure_post : forall A (P : prog A) g (Q R : A -> Z * Z * Z -> Prop), sure P g Q -> (forall a g', Q a g' -> R a g') -> sure P g R.
  Proof.
    intros A P. induction P as [a|B m k IH]; intros g Q R HP H; [exact (H _ _ HP)|]. destruct HP as (H1 & H2 & H3). split; [exact H1|]. split; [exact H2|].
    intros s G Hs. destruct (H3 s G Hs) as (b & s1 & e & g' & K1 & K2 & K3 & K4). exists b, s1, e, g'. split; [exact K1|]. split; [exact K2|]. split; [exact K3|]. exact (IH b g' Q R K4 H).
  Qed.

  Theorem sure_ends : forall A (P : prog A) g Q, sure P g Q -> forall w l due s, Forall (Forall handler) w -> by_rules complete (concat w) l due ->
    base l due s -> grip g s ->
    exists a sn sv s1 es g', preempted E P w s = Ok ((a, sn, sv), s1, es) /\ base (listen_all sv l) (owes_all sv l due) s1 /\
      by_rules complete (concat (skipn (length sn) w)) (listen_all sv l) (owes_all sv l due) /\ grip g' s1 /\ Q a g' /\
      Forall handler sv /\ by_rules complete sv l due.
  Proof.
    intros A P. induction P as [a|B m k IH]; intros g Q HP w l due s Hw Hb C G.
    - exists a, [], [], s, [], g. split; [reflexivity|]. split; [exact C|]. split; [exact Hb|]. split; [exact G|]. split; [exact HP|]. split; [constructor|exact Logic.I].
    - destruct HP as (H1 & H2 & H3). rewrite concat_hd in Hb. apply by_rules_app in Hb. destruct Hb as [B1 B2].
      destruct (handlers_base _ _ _ _ _ (handlers_hd _ Hw) C G B1) as (s1 & e1 & R & C1 & G1).
      destruct (H3 s1 G1 (proj1 (proj2 C1))) as (b & s2 & e2 & g2 & K1 & K2 & K3 & K4).
      assert (C2 : base (listen_all (hd [] w) l) (owes_all (hd [] w) l due) s2).
      { destruct C1 as (C1 & _ & C3). split; [exact (calm_keeps _ _ _ _ (H1 _ _ _ _ K1) (H2 _ _ _ _ K1) C1)|]. split; [exact K3|exact C3]. }
      destruct (IH b g2 Q K4 (tl w) _ _ s2 (handlers_tl _ Hw) B2 C2 K2) as (a & sn & sv & s3 & e3 & g3 & P3 & C3 & B3 & G3 & Q3 & S1 & S2).
      exists a, (r_deque (rxs s1) :: sn), (hd [] w ++ sv), s3, (e1 ++ e2 ++ e3), g3.
      split; [exact (preempted_act E _ _ _ _ _ _ _ _ _ _ _ _ _ _ _ _ R K1 P3)|]. rewrite listen_all_app, owes_all_app. split; [exact C3|].
      split; [cbn [length]; replace (skipn (S (length sn)) w) with (skipn (length sn) (tl w)) by (destruct w; [rewrite !skipn_nil; reflexivity|reflexivity]); exact B3|].
      split; [exact G3|]. split; [exact Q3|]. split; [apply Forall_app; split; [exact (handlers_hd _ Hw)|exact S1]|]. apply by_rules_app. split; [exact B1|exact S2].
  Qed.

  (** Programs that leave alone what is relied on *)
  Definition easy {A} (P : prog (I := I) A) : Prop := forall g, in_order g -> sure P g (fun _ g' => g' = g).
  Lemma easy_Done : forall A (a : A), easy (Done a).
  Proof. intros A a g _. reflexivity. Qed.
  Lemma easy_bind : forall A C (P : prog A) (k : A -> prog C), easy P -> (forall a, easy (k a)) -> easy (pbind P k).
  Proof. intros A C P k HP Hk g Hg. apply (sure_bind _ _ _ _ _ _ _ (HP g Hg)). intros a g' ->. exact (Hk a g Hg). Qed.
  Lemma easy_rd : forall X A (f : rx -> X) (k : X -> prog A), (forall r, sane r -> easy (k (f r))) -> easy (pbind (rd f) k).
  Proof.
    intros X A f k H g Hg. split; [intros ? ? ? ? K; inversion K; reflexivity|]. split; [intros ? ? ? ? K; inversion K; reflexivity|].
    intros s G Hs. exists (f (rxs s)), s, [], g. split; [reflexivity|]. split; [exact G|]. split; [exact Hs|]. exact (H _ Hs g Hg).
  Qed.
  (** Calls of the application *)
  Definition apart_from {B} (m : M (I := I) B) (R : B -> Prop) : Prop :=
    forall s, exists b i q e, m s = Ok (b, Mk_st (rxs s) i q, e) /\ time (app s) <= time i /\ R b.
  Lemma sure_apart : forall B A (m : M B) R (k : B -> prog A) g (Q : A -> Z * Z * Z -> Prop), apart_from m R -> (forall b, R b -> sure (k b) g Q) -> sure (pbind (act m) k) g Q.
  Proof.
    intros B A m R k g Q Hm H. split; [intros s b s' e K; destruct (Hm s) as (? & ? & ? & ? & X & _); rewrite X in K; inversion K; reflexivity|].
    split; [intros s b s' e K; destruct (Hm s) as (? & ? & ? & ? & X & _); rewrite X in K; inversion K; reflexivity|].
    intros s (G1 & G2 & G3) Hs. destruct (Hm s) as (b & i & q & e & X & T & Rb). exists b, (Mk_st (rxs s) i q), e, g.
    split; [exact X|]. split; [repeat split; cbn; auto; lia|]. split; [exact Hs|exact (H b Rb)].
  Qed.
  Lemma easy_apart : forall B A (m : M B) R (k : B -> prog A), apart_from m R -> (forall b, R b -> easy (k b)) -> easy (pbind (act m) k).
  Proof. intros B A m R k Hm H g Hg. apply (sure_apart _ _ _ _ _ _ _ Hm). intros b Rb. exact (H b Rb g Hg). Qed.
  Lemma easy_apart0 : forall B (m : M B), apart_from m (fun _ => True) -> easy (act m).
  Proof.
    intros B m H. assert (X : easy (pbind (act m) Done)) by (apply (easy_apart _ _ _ _ _ H); intros b _; apply easy_Done). exact X.
  Qed.
  Lemma apart_readCv : forall cv, apart_from (readCv E cv) (fun v => byte v /\ (cv = 0 -> ~ 192 <= v <= 231)).
  Proof.
    intros cv s. pose proof (ages_readCv E time HC cv s) as T. pose proof (HE (app s)) as K. unfold readCv in *. destruct (e_readCv E (app s) cv) as [v i] eqn:Ev.
    do 4 eexists. split; [reflexivity|]. split; [exact (T _ _ _ eq_refl)|]. split; [apply u8_byte|]. intros ->. rewrite Ev in K. exact K.
  Qed.
  Lemma apart_readCvByte : forall cv b, apart_from (readCvByte E cv b) byte.
  Proof.
    intros cv b s. pose proof (ages_readCvByte E time HC cv b s) as T. unfold readCvByte in *. destruct (e_readCvByte E (app s) cv b) as [v i].
    do 4 eexists. split; [reflexivity|]. split; [exact (T _ _ _ eq_refl)|apply u8_byte].
  Qed.
  Lemma apart_writeCv : forall cv b, apart_from (writeCv E cv b) byte.
  Proof.
    intros cv b s. pose proof (ages_writeCv E time HC cv b s) as T. unfold writeCv in *. destruct (e_writeCv E (app s) cv b) as [v i].
    do 4 eexists. split; [reflexivity|]. split; [exact (T _ _ _ eq_refl)|apply u8_byte].
  Qed.
  Lemma apart_readCvBit : forall cv b o, apart_from (readCvBit E cv b o) (fun _ => True).
  Proof.
    intros cv b o s. pose proof (ages_readCvBit E time HC cv b o s) as T. unfold readCvBit in *. destruct (e_readCvBit E (app s) cv b o) as [v i].
    do 4 eexists. split; [reflexivity|]. split; [exact (T _ _ _ eq_refl)|exact Logic.I].
  Qed.
  Lemma apart_writeCvBit : forall cv b o, apart_from (writeCvBit E cv b o) (fun _ => True).
  Proof.
    intros cv b o s. pose proof (ages_writeCvBit E time HC cv b o s) as T. unfold writeCvBit in *. destruct (e_writeCvBit E (app s) cv b o) as [v i].
    do 4 eexists. split; [reflexivity|]. split; [exact (T _ _ _ eq_refl)|exact Logic.I].
  Qed.
  Lemma apart_call : forall e, apart_from (call E e) (fun _ => True).
  Proof. intros e s. pose proof (ages_call E time HC e s) as T. do 4 eexists. split; [reflexivity|]. split; [exact (T _ _ _ eq_refl)|exact Logic.I]. Qed.
  Lemma apart_rand : apart_from (rand E) (fun _ => True).
  Proof.
    intros s. pose proof (ages_rand E time HC s) as T. unfold rand in *. destruct (e_rand E (app s)) as [v i].
    do 4 eexists. split; [reflexivity|]. split; [exact (T _ _ _ eq_refl)|exact Logic.I].
  Qed.
  Lemma apart_ask : forall e c, apart_from (ask E e c) (fun _ => True).
  Proof.
    intros e c s. destruct HC as (_ & _ & _ & _ & _ & _ & T & _). specialize (T (app s) e). unfold ask. destruct (e_async E (app s) e) as [[v|] i];
      (do 4 eexists; split; [reflexivity|]; split; [exact T|exact Logic.I]).
  Qed.
  (** Assignments *)
  Lemma easy_wr : forall f, (forall r, core (f r) = core r) -> (forall r, view (f r) = view r) -> (forall r, times (f r) = times r) -> (forall r, sane r -> sane (f r)) -> easy (wr f).
  Proof.
    intros f H1 H2 H3 H4 g Hg. split; [apply keeps_modify; exact H1|]. split; [apply keeps_modify; exact H2|]. intros s (G1 & G2 & G3) Hs.
    exists tt, (Mk_st (f (rxs s)) (app s) (pending s)), [], g. split; [reflexivity|]. split; [|split; [apply H4; exact Hs|reflexivity]].
    specialize (H1 (rxs s)). unfold core in H1. injection H1 as _ H1 _. unfold grip. cbn [rxs app]. rewrite H1, H3. auto.
  Qed.
  Lemma easy_local : forall X A (m : res X) (k : X -> prog A) x, m = Ok x -> easy (k x) -> easy (pbind (local m) k).
  Proof. intros X A m k x -> H. exact H. Qed.
  Lemma easy_rd0 : forall X (f : rx -> X), easy (rd f).
  Proof. intros X f. assert (K : easy (pbind (rd f) Done)) by (apply easy_rd; intros; apply easy_Done). exact K. Qed.
  Lemma sure_rd : forall X A (f : rx -> X) (k : X -> prog A) g Q, (forall r, sane r -> times r = fst g -> sure (k (f r)) g Q) -> sure (pbind (rd f) k) g Q.
  Proof.
    intros X A f k g Q H. split; [intros ? ? ? ? K; inversion K; reflexivity|]. split; [intros ? ? ? ? K; inversion K; reflexivity|].
    intros s G Hs. exists (f (rxs s)), s, [], g. split; [reflexivity|]. split; [exact G|]. split; [exact Hs|]. apply (H _ Hs). apply G.
  Qed.

  Ltac sn := let r := fresh "r" in let Hr := fresh "Hr" in intros r Hr; open_sane Hr; unfold sane; cbn; close_sane; auto.
  Ltac wr0 := apply easy_wr; [reflexivity|reflexivity|reflexivity|sn].
  Ltac easy0 :=
    cbv beta;
    lazymatch goal with
    | |- easy (pbind (rd _) _) => apply easy_rd; intros ? ?
    | |- easy (rd _) => apply easy_rd0
    | |- easy (pbind (act (readCv _ _)) _) => apply (easy_apart _ _ _ _ _ (apart_readCv _)); intros ? [? _]
    | |- easy (pbind (act (readCvByte _ _ _)) _) => apply (easy_apart _ _ _ _ _ (apart_readCvByte _ _)); intros ? ?
    | |- easy (pbind (act (readCvBit _ _ _ _)) _) => apply (easy_apart _ _ _ _ _ (apart_readCvBit _ _ _)); intros ? _
    | |- easy (pbind (act (writeCv _ _ _)) _) => apply (easy_apart _ _ _ _ _ (apart_writeCv _ _)); intros ? ?
    | |- easy (pbind (act (writeCvBit _ _ _ _)) _) => apply (easy_apart _ _ _ _ _ (apart_writeCvBit _ _ _)); intros ? _
    | |- easy (say _ _) => apply easy_apart0, apart_call
    | |- easy (wr _) => wr0
    | |- easy (Done _) => apply easy_Done
    | |- easy (whenP _ _) => unfold whenP
    | |- easy (let _ := _ in _) => cbv zeta
    | |- easy (if ?b then _ else _) => destruct b eqn:?
    end.

  Lemma easy_push : forall g, easy (adrPushP g).
  Proof.
    intros g. unfold adrPushP. apply easy_rd. intros r _. destruct (adrHigh_ok r (g (r_addrs r))) as (x & -> & _). apply easy_local with x; [reflexivity|].
    apply easy_bind; [wr0|intros _]. apply easy_rd. intros r1 _. destruct (adrLow_ok r1 (g (r_addrs r1))) as (y & -> & _). apply easy_local with y; [reflexivity|]. wr0.
  Qed.
  Lemma easy_adr : easy adrP.
  Proof.
    unfold adrP. easy0. apply easy_bind; [repeat easy0|]. intros []; [easy0|]. easy0. destruct (negb _); [apply easy_push|]. easy0. destruct (_ =? 0); [apply easy_push|]. easy0.
    destruct (_ && _); [apply easy_push|easy0].
  Qed.
  Lemma easy_logonStore : easy (logonStoreP E).
  Proof.
    unfold logonStoreP. repeat (easy0 || (apply easy_bind; [|intros _])).
  Qed.
  Lemma easy_qos : easy updateQosP.
  Proof. unfold updateQosP. repeat (easy0 || (apply easy_bind; [|intros _])). Qed.
  Lemma sure_wr : forall (f : rx -> rx) (g g' : Z * Z * Z) (Q : unit -> Z * Z * Z -> Prop), (forall r, core (f r) = core r) -> (forall r, view (f r) = view r) -> (forall r, times r = fst g -> times (f r) = fst g') -> snd g' <= snd g -> (forall r, sane r -> sane (f r)) ->
    Q tt g' -> sure (wr f) g Q.
  Proof.
    intros f g g' Q H1 H2 H3 H5 H4 HQ. split; [apply keeps_modify; exact H1|]. split; [apply keeps_modify; exact H2|]. intros s (G1 & G2 & G3) Hs.
    exists tt, (Mk_st (f (rxs s)) (app s) (pending s)), [], g'. split; [reflexivity|]. split; [|split; [apply H4; exact Hs|exact HQ]].
    specialize (H1 (rxs s)). unfold core in H1. injection H1 as _ H1 _. unfold grip. cbn [rxs app]. rewrite H1, (H3 _ G2). split; [exact G1|]. split; [reflexivity|lia].
  Qed.
  Lemma sure_times : forall g, in_order g -> sure (updateTimepointsP E) g (fun _ g' => in_order g').
  Proof.
    intros [[lp tt0] t0] [Hg1 Hg2]. cbn [fst snd] in *. unfold updateTimepointsP. split; [leaf_keeps|]. split; [leaf_keeps|].
    intros s (G1 & G2 & G3) Hs. cbn [fst snd] in *. destruct HC as (N & _). specialize (N (app s)). unfold now. destruct (e_now E (app s)) as [tp i]. cbn [fst snd] in N.
    exists tp, (Mk_st (rxs s) i (pending s)), [], (lp, tt0, tp). split; [reflexivity|]. split; [split; [exact G1|]; split; [exact G2|cbn; lia]|]. split; [exact Hs|].
    cbn [pbind]. apply sure_rd. intros r Hr Ht. unfold times in Ht. cbn [fst] in Ht. injection Ht as -> _.
    assert (F : forall x, sure (wr (set_last_packet_tp tp)) (lp, x, tp) (fun _ g' => g' = (tp, x, tp))).
    { intros x. apply sure_wr with (tp, x, tp); try reflexivity; cbn [fst snd]; [|sn]. intros r1 H1. unfold times in *. cbn in *. injection H1 as _ <-. reflexivity. }
    apply (sure_bind _ _ _ _ _ (fun _ g' => g' = (lp, tp, tp) \/ g' = (lp, tt0, tp))).
    - unfold whenP. destruct (_ <=? _); [|right; reflexivity].
      apply (sure_bind _ _ _ _ _ (fun _ g' => g' = (lp, tt0, tp))).
      + apply sure_wr with (lp, tt0, tp); try reflexivity; [intros r0 Hr0; exact Hr0|]. intros r0 Hr0; open_sane Hr0; unfold sane; cbn; close_sane. apply now_pausing.
      + intros _ g' ->. apply sure_wr with (lp, tp, tp); try reflexivity; cbn [fst snd]; [|sn|left; reflexivity].
        intros r1 H1. unfold times in *. cbn in *. injection H1 as <- _. reflexivity.
    - intros _ g' [-> | ->].
      + assert (K : sure (wr (set_last_packet_tp tp)) (lp, tp, tp) (fun _ g' => in_order g')).
        { apply (sure_bind _ _ _ Done _ _ _ (F tp)). intros [] g' ->. unfold in_order. cbn. lia. }
        exact K.
      + assert (K : sure (wr (set_last_packet_tp tp)) (lp, tt0, tp) (fun _ g' => in_order g')).
        { apply (sure_bind _ _ _ Done _ _ _ (F tt0)). intros [] g' ->. unfold in_order. cbn. lia. }
        exact K.
  Qed.

  (** Accesses of CVs *)
  Lemma easy_init : easy (initP E).
  Proof.
    unfold initP. easy0.
    intros g Hg. apply (sure_bind _ _ _ _ _ (fun a g' => g' = g /\ 0 <= aval a < 16384)).
    - destruct (Z.testbit _ 5).
      + assert (K : forall c17 c18, byte c17 -> byte c18 -> sure (local (decode_address [c17; c18])) g (fun a g' => g' = g /\ 0 <= aval a < 16384)).
        { intros u v Ha Hb. destruct (decode_two u v Ha Hb) as (x & Hx). rewrite Hx. split; [reflexivity|]. refine (decode_range _ _ _ Hx).
          apply Forall_cons; [exact Ha|]. apply Forall_cons; [exact Hb|apply Forall_nil]. }
        apply (sure_apart _ _ _ _ _ _ _ (apart_readCv 16)). intros a [Ha _]. apply (sure_apart _ _ _ _ _ _ _ (apart_readCv 17)). intros c [Hc _]. exact (K a c Ha Hc).
      + apply (sure_apart _ _ _ _ _ _ _ (apart_readCv 0)). intros a [Ha Hn]. specialize (Hn eq_refl). rewrite decode_one by exact Ha.
        replace ((192 <=? a) && (a <=? 231)) with false by lia. split; [reflexivity|]. cbn [aval]. unfold byte in Ha. lia.
    - intros prim g' [-> Hp]. revert g Hg. match goal with |- forall g, in_order g -> sure ?P g _ => change (easy P) end.
      repeat (easy0 || (apply easy_bind; [|intros _])); try (cbn; lia).
      all: try (apply Z.mod_pos_bound; reflexivity).
      all: try reflexivity.
      match goal with |- 0 <= u16 ?x < _ => change x with (100 * Z.land b1 127 + Z.land b0 127) end. rewrite !land_7F.
      pose proof (Z.mod_pos_bound b1 128). pose proof (Z.mod_pos_bound b0 128). unfold u16. rewrite Z.mod_small; lia.
  Qed.
  Lemma easy_pom : forall v, byte v -> easy (pomP v).
  Proof.
    intros v Hv. unfold pomP. do 2 easy0; [easy0|]. apply easy_bind; [easy0|intros _]. destruct (make12_coded v Hv) as (d & Hd & _).
    apply easy_local with d; [exact Hd|]. easy0.
  Qed.
  Lemma easy_cb_byte : forall b v, byte v -> easy (cb_byteP E b v).
  Proof. intros b v Hv. unfold cb_byteP. do 2 easy0; [apply easy_pom; exact Hv|]. repeat easy0. Qed.
  Lemma easy_cb_bit : forall b v, easy (cb_bitP E b v).
  Proof. intros b v. unfold cb_bitP. do 2 easy0; [apply easy_pom; destruct v; unfold byte; cbn; lia|]. repeat easy0. Qed.
  Lemma easy_run_cb : forall c v, easy (run_cbP E c v).
  Proof. intros [b|b] v; [apply easy_cb_byte, u8_byte|apply easy_cb_bit]. Qed.
  Lemma easy_async : forall e c, easy (call_asyncP E e c).
  Proof. intros e c. unfold call_asyncP. apply (easy_apart _ _ _ _ _ (apart_ask _ _)). intros [v|] _; [apply easy_run_cb|apply easy_Done]. Qed.
  Lemma easy_reinit : forall a, easy (reinitP E a).
  Proof. intros a. unfold reinitP, whenP. destruct (existsb _ _); [apply easy_init|apply easy_Done]. Qed.
  (** What is read of the packet *)
  Hypothesis Hon : on.
  Lemma easy_front_at : forall off i A (k : Z -> prog A), (i < length (skipn off p))%nat -> easy (k (nth i (skipn off p) 0)) -> easy (pbind (byt off i) k).
  Proof.
    intros off i A k Hi Hk g Hg. split; [leaf_keeps|]. split; [leaf_keeps|]. intros s G Hs. exists (nth i (skipn off p) 0), s, [], g.
    split; [|split; [exact G|split; [exact Hs|exact (Hk g Hg)]]]. destruct G as (G & _). specialize (G Hon). unfold front_at. destruct (r_deque (rxs s)) as [|q r]; [discriminate|]. injection G as ->.
    rewrite (nth_error_nth' _ 0 Hi). reflexivity.
  Qed.
  Lemma easy_size : forall off A (k : nat -> prog A), easy (k (length (skipn off p))) -> easy (pbind (act (front_size off)) k).
  Proof.
    intros off A k Hk g Hg. split; [leaf_keeps|]. split; [leaf_keeps|]. intros s G Hs. exists (length (skipn off p)), s, [], g.
    split; [|split; [exact G|split; [exact Hs|exact (Hk g Hg)]]]. destruct G as (G & _). specialize (G Hon). unfold front_size. destruct (r_deque (rxs s)) as [|q r]; [discriminate|]. injection G as ->. reflexivity.
  Qed.
  Lemma easy_front : easy (act front).
  Proof.
    intros g Hg. split; [leaf_keeps|]. split; [leaf_keeps|]. intros s G Hs. exists p, s, [], g.
    split; [|split; [exact G|split; [exact Hs|reflexivity]]]. destruct G as (G & _). specialize (G Hon). unfold front. destruct (r_deque (rxs s)) as [|q r]; [discriminate|]. injection G as ->. reflexivity.
  Qed.
  Lemma keeps_address : forall X (f : rx -> X), keeps f (front_address (I := I)).
  Proof. intros X f s a s' es H. unfold front_address in H. destruct (r_deque (rxs s)); [discriminate|]. destruct (decode_address _); inversion H; reflexivity. Qed.
  Lemma easy_address : forall A a (k : address -> prog A), decode_address p = Ok a -> easy (k a) -> easy (pbind (act front_address) k).
  Proof.
    intros A a k Ha Hk g Hg. split; [apply keeps_address|]. split; [apply keeps_address|]. intros s G Hs. exists a, s, [], g.
    split; [|split; [exact G|split; [exact Hs|exact (Hk g Hg)]]]. destruct G as (G & _). specialize (G Hon). unfold front_address. destruct (r_deque (rxs s)) as [|q r]; [discriminate|]. injection G as ->. rewrite Ha. reflexivity.
  Qed.
  Lemma easy_instruction : forall off A (k : instruction -> prog A), (0 < length (skipn off p))%nat -> easy (k (classify (nth 0 (skipn off p) 0))) -> easy (pbind (act (front_instruction off)) k).
  Proof.
    intros off A k Hl Hk g Hg. split; [leaf_keeps|]. split; [leaf_keeps|]. intros s G Hs. exists (classify (nth 0 (skipn off p) 0)), s, [], g.
    split; [|split; [exact G|split; [exact Hs|exact (Hk g Hg)]]]. destruct G as (G & _). specialize (G Hon). unfold front_instruction. destruct (r_deque (rxs s)) as [|q r]; [discriminate|]. injection G as ->.
    destruct (skipn off p); [cbn in Hl; lia|]. reflexivity.
  Qed.
  Ltac easy1 :=
    lazymatch goal with
    | |- easy (call_asyncP _ _ _) => apply easy_async
    | |- easy (cb_bitP _ _ _) => apply easy_cb_bit
    | |- easy (cb_byteP _ _ _) => apply easy_cb_byte; assumption
    | |- easy (reinitP _ _) => apply easy_reinit
    | _ => first [easy0|apply easy_bind; [|intros _]]
    end.
  Lemma easy_cvVerify : forall a b, easy (cvVerifyP E a b).
  Proof. intros. unfold cvVerifyP. repeat easy1. Qed.
  Lemma easy_cvVerifyBit : forall a b o, easy (cvVerifyBitP E a b o).
  Proof. intros. unfold cvVerifyBitP. repeat easy1. Qed.
  Lemma easy_cvWrite : forall a b, easy (cvWriteP E a b).
  Proof. intros. unfold cvWriteP. repeat easy1. Qed.
  Lemma easy_cvWriteBit : forall a b o, easy (cvWriteBitP E a b o).
  Proof. intros. unfold cvWriteBitP. repeat easy1. Qed.

  (** Commands; the bytes they read are there *)
  Ltac easy2 :=
    cbv beta;
    lazymatch goal with
    | |- easy (cvVerifyP _ _ _) => apply easy_cvVerify
    | |- easy (cvVerifyBitP _ _ _ _) => apply easy_cvVerifyBit
    | |- easy (cvWriteP _ _ _) => apply easy_cvWrite
    | |- easy (cvWriteBitP _ _ _ _) => apply easy_cvWriteBit
    | |- easy (pbind (byt _ _) _) => apply easy_front_at; [try lia|]
    | |- easy (pbind (act (front_size _)) _) => apply easy_size
    | |- easy countP => unfold countP; apply easy_rd0
    | |- easy (pbind countP _) => unfold countP; apply easy_rd; intros ? ?
    | _ => easy1
    end.
  Lemma easy_countOwn : easy countOwnP.
  Proof.
    unfold countOwnP. apply easy_bind; [apply easy_front|]. intros q. easy0. easy0; [easy0|]. apply easy_bind; [easy0|intros _].
    apply easy_bind; [apply easy_front|]. intros q'. apply easy_bind; [easy0|intros _]. easy0.
  Qed.
  Lemma easy_is_consist : forall a, easy (is_consistP (I := I) a).
  Proof. intros a. unfold is_consistP. repeat easy0. Qed.
  Lemma easy_cvLong : forall a off, (2 <= length (skipn off p))%nat -> (Z.land (Z.shiftr (nth 0 (skipn off p) 0) 2) 3 <> 0 -> (3 <= length (skipn off p))%nat) ->
    easy (cvLongP E a off).
  Proof.
    intros a off H2 H3. unfold cvLongP. apply easy_bind; [apply easy_is_consist|]. intros []; [apply easy_Done|]. apply easy_bind; [apply easy_countOwn|intros _].
    easy0. apply easy_bind; [repeat easy2|]. intros []; [apply easy_Done|]. easy2. easy2. cbv zeta.
    destruct (Z.eqb_spec (Z.land (Z.shiftr (nth 0 (skipn off p) 0) 2) 3) 0) as [|Hk]; [apply easy_Done|]. specialize (H3 Hk). repeat easy2.
  Qed.
  Lemma easy_cvShort : forall a off, let b := nth 0 (skipn off p) 0 in
    (1 <= length (skipn off p))%nat -> (Z.land b 15 = 2 \/ Z.land b 15 = 3 -> (2 <= length (skipn off p))%nat) ->
    (Z.land b 15 = 4 \/ Z.land b 15 = 5 -> (3 <= length (skipn off p))%nat) -> easy (cvShortP E a off).
  Proof.
    intros a off b H1 H2 H3. unfold cvShortP. apply easy_bind; [apply easy_is_consist|]. intros []; [apply easy_Done|]. apply easy_bind; [apply easy_countOwn|intros _].
    easy2. cbv zeta. fold b. repeat easy2.
  Qed.
  Lemma easy_register : forall off, (2 <= length (skipn off p))%nat -> easy (registerModeP E off).
  Proof. intros off H. unfold registerModeP. repeat easy2. Qed.
  Lemma easy_consistControl : forall off, (2 <= length (skipn off p))%nat -> easy (consistControlP E off).
  Proof. intros off H. unfold consistControlP. repeat easy2. Qed.
  Lemma easy_serviceMode : forall b, easy (serviceModeP E b).
  Proof. intros b. unfold serviceModeP. repeat easy2. Qed.
  Lemma easy_directionSpeed : forall a d n, easy (directionSpeedP E a d n).
  Proof. intros a d n. unfold directionSpeedP. easy0. apply easy_bind; [repeat easy0|]. intros x. repeat easy2. Qed.
  Lemma easy_speed126 : forall a off, (2 <= length (skipn off p))%nat -> easy (speed126P E a off).
  Proof. intros a off H. unfold speed126P. easy2. cbv zeta. repeat (easy2 || apply easy_directionSpeed). Qed.
  Lemma easy_advanced : forall a off, (1 <= length (skipn off p))%nat ->
    (nth 0 (skipn off p) 0 = 60 \/ nth 0 (skipn off p) 0 = 62 \/ nth 0 (skipn off p) 0 = 63 -> (2 <= length (skipn off p))%nat) -> easy (advancedOperationsP E a off).
  Proof.
    intros a off H1 H2. unfold advancedOperationsP. easy2.
    destruct (Z.eqb_spec (nth 0 (skipn off p) 0) 60) as [K|_].
    { specialize (H2 (or_introl K)). easy2.
      repeat first [apply easy_speed126; lia|easy2]; match goal with H : (_ <? _)%nat = true |- _ => apply Nat.ltb_lt in H; lia end. }
    destruct (Z.eqb_spec (nth 0 (skipn off p) 0) 63) as [K|_]; [apply easy_speed126, H2; auto|].
    destruct (Z.eqb_spec (nth 0 (skipn off p) 0) 62) as [K|_]; [|apply easy_Done]. specialize (H2 (or_intror (or_introl K))). repeat easy2.
  Qed.
  Lemma easy_speed : forall a off, (1 <= length (skipn off p))%nat -> easy (speedAndDirectionP E a off).
  Proof. intros a off H. unfold speedAndDirectionP. repeat first [apply easy_directionSpeed|easy2]. Qed.
  Lemma easy_function : forall a off, (1 <= length (skipn off p))%nat -> easy (functionGroupP E a off).
  Proof. intros a off H. unfold functionGroupP. repeat easy2. Qed.
  Lemma easy_tos_test : easy (tos_testP E).
  Proof.
    unfold tos_testP. apply easy_rd. intros r Hr. apply easy_bind; [destruct (_ =? 0); [apply easy_apart0, apart_rand|apply easy_Done]|]. intros n.
    open_sane Hr. pose proof (backoff_pausing _ n Htb) as K. destruct (backoff_test (tos_backoff (r_time r)) n) as [b b']. cbn [snd] in K.
    apply easy_bind; [|intros _; apply easy_Done]. wr0.
  Qed.
  Lemma time_ok : forall n, 0 <= n < 30 -> exists x, rbind (Datagram.make_datagram_id Datagram.B12 14 (u32 n)) Datagram.encode_datagram = Ok x.
  Proof.
    intros n Hn. assert (H : forallb (fun k => match rbind (Datagram.make_datagram_id Datagram.B12 14 (u32 (Z.of_nat k))) Datagram.encode_datagram with Ok _ => true | UB _ => false end) (seq 0 30) = true) by (vm_compute; reflexivity).
    rewrite forallb_forall in H. specialize (H (Z.to_nat n)). rewrite Z2Nat.id in H by lia.
    destruct (rbind _ _) as [x|]; [eauto|]. discriminate H. apply in_seq. lia.
  Qed.
  Lemma easy_tipOff : easy (tipOffSearchP E).
  Proof.
    unfold tipOffSearchP. apply easy_bind; [apply easy_tos_test|]. intros b. apply easy_bind; [repeat easy0|]. intros []; [apply easy_Done|].
    intros [[lp tp] t0] Hg. apply sure_rd. intros r _ Ht. unfold times in Ht. injection Ht as -> _. apply sure_rd. intros r1 _ Ht. unfold times in Ht. injection Ht as _ ->.
    cbv zeta. destruct (Z.leb_spec 30 (Z.quot (lp - tp) 1000000000)); [reflexivity|]. revert Hg. destruct 1 as [Hg1 Hg2]. cbn [fst snd] in *.
    assert (0 <= Z.quot (lp - tp) 1000000000) by (apply Z.quot_pos; lia).
    destruct (time_ok (Z.quot (lp - tp) 1000000000)) as (z & Hz); [lia|].
    assert (K : in_order (lp, tp, t0)) by (split; assumption). revert K. generalize (lp, tp, t0). match goal with |- forall g, in_order g -> sure ?P g _ => change (easy P) end.
    apply easy_rd. intros r2 _. destruct (adrHigh_ok r2 (primary (r_addrs r2))) as (x & -> & _). apply easy_local with x; [reflexivity|].
    apply easy_rd. intros r3 _. destruct (adrLow_ok r3 (primary (r_addrs r3))) as (y & -> & _). apply easy_local with y; [reflexivity|].
    apply easy_local with z; [exact Hz|]. wr0.
  Qed.
  Lemma easy_feature : forall a off, (1 <= length (skipn off p))%nat -> (nth 0 (skipn off p) 0 = 192 -> (3 <= length (skipn off p))%nat) ->
    (nth 0 (skipn off p) 0 = 221 \/ nth 0 (skipn off p) 0 = 222 \/ nth 0 (skipn off p) 0 = 223 -> (2 <= length (skipn off p))%nat) -> easy (featureExpansionP E a off).
  Proof.
    intros a off H1 H2 H3. unfold featureExpansionP, binaryStateP. easy2.
    repeat first [apply easy_tipOff|easy2].
  Qed.

  Lemma bytes_read : forall b, byte b -> let n := need 2 false b in
    match classify b with
    | IConsistControl => (2 <= n)%nat
    | IAdvancedOperations => b = 60 \/ b = 62 \/ b = 63 -> (2 <= n)%nat
    | IFeatureExpansion => (b = 192 -> (3 <= n)%nat) /\ (b = 221 \/ b = 222 \/ b = 223 -> (2 <= n)%nat)
    | ICvLong => (2 <= n)%nat /\ (Z.land (Z.shiftr b 2) 3 <> 0 -> (3 <= n)%nat)
    | ICvShort => (Z.land b 15 = 2 \/ Z.land b 15 = 3 -> (2 <= n)%nat) /\ (Z.land b 15 = 4 \/ Z.land b 15 = 5 -> (3 <= n)%nat)
    | _ => True
    end.
  Proof.
    intros b Hb n. pose (f := fun b => let n := need 2 false b in
      match classify b with
      | IConsistControl => (2 <=? n)%nat
      | IAdvancedOperations => negb ((b =? 60) || (b =? 62) || (b =? 63)) || (2 <=? n)%nat
      | IFeatureExpansion => (negb (b =? 192) || (3 <=? n)%nat) && (negb ((b =? 221) || (b =? 222) || (b =? 223)) || (2 <=? n)%nat)
      | ICvLong => (2 <=? n)%nat && ((Z.land (Z.shiftr b 2) 3 =? 0) || (3 <=? n)%nat)
      | ICvShort => (negb ((Z.land b 15 =? 2) || (Z.land b 15 =? 3)) || (2 <=? n)%nat) && (negb ((Z.land b 15 =? 4) || (Z.land b 15 =? 5)) || (3 <=? n)%nat)
      | _ => true
      end).
    assert (H := sweep8 f ltac:(vm_compute; reflexivity) b Hb). unfold f in H. fold n in H. cbv zeta in H. generalize dependent n. intros n H.
    destruct (classify b); try exact Logic.I; rewrite ?andb_true_iff, ?orb_true_iff, ?negb_true_iff, ?orb_false_iff, ?Z.eqb_neq, ?Z.eqb_eq, ?Nat.leb_le in H; [exact H|..]; intuition.
  Qed.

  (** What is read of the packet is there *)
  Hypothesis Hp : whole p.
  Lemma easy_instruct : forall a off, for_locos p -> is_logon p = false -> skipn off p = body_of p -> (1 <= length (body_of p))%nat -> easy (instructP E a off).
  Proof.
    intros a off Hl Hn Ho H1. destruct Hp as (Hc & Hb & H3). unfold complete in Hc. rewrite Hn in Hc. specialize (Hc Hl 2%nat false). rewrite <- Ho in *.
    unfold instructP. apply easy_instruction; [lia|].
    assert (K : hd 0 (skipn off p) = nth 0 (skipn off p) 0) by (destruct (skipn off p); reflexivity). rewrite K in Hc.
    assert (Hy : byte (nth 0 (skipn off p) 0)).
    { assert (F : Forall byte (skipn off p)) by (apply Forall_skipn_byte; exact Hb). destruct (skipn off p); [cbn in H1; lia|]. inversion F; assumption. }
    pose proof (bytes_read _ Hy) as R. cbv zeta in R. apply easy_bind; [|intros _; apply easy_Done].
    destruct (classify (nth 0 (skipn off p) 0)).
    - apply easy_Done.
    - repeat first [apply easy_serviceMode|easy2].
    - apply easy_consistControl. lia.
    - apply easy_advanced; [exact H1|]. intros X. specialize (R X). lia.
    - apply easy_speed. exact H1.
    - apply easy_function. exact H1.
    - apply easy_feature; [exact H1|intros X; apply (proj1 R) in X; lia|intros X; apply (proj2 R) in X; lia].
    - apply easy_cvLong; [lia|]. intros X. apply (proj2 R) in X. lia.
    - apply easy_cvShort; [exact H1|intros X; apply (proj1 R) in X; lia|intros X; apply (proj2 R) in X; lia].
    - apply easy_Done.
  Qed.
  Lemma easy_operations : easy (executeOperationsP E).
  Proof.
    destruct Hp as (Hc & Hb & H3). unfold executeOperationsP. apply easy_address with (address_of p); [apply decode_address_of; [exact Hb|lia]|].
    assert (K : forall off, In (atyp (address_of p)) [ATBroadcast; ATShort; ATLong] -> skipn off p = body_of p -> (off <= 2)%nat -> easy (executeOperationsAddressedP E (address_of p) off)).
    { intros off Hl Ho Hof. assert (Hn : is_logon p = false).
      { destruct (is_logon p) eqn:El; [|reflexivity]. exfalso. destruct (is_logon_254 p El) as (_ & _ & Ha). rewrite Ha in Hl. cbn in Hl. intuition discriminate. }
      assert (H1 : (1 <= length (body_of p))%nat) by (rewrite <- Ho, skipn_length; lia).
      assert (J : forall a, easy (instructP E a off)) by (intros a; apply easy_instruct; auto).
      unfold executeOperationsAddressedP. destruct (_ =? 0); [apply J|]. easy0. apply easy_bind; [repeat easy0|]. intros own. apply easy_bind; [repeat easy0|].
      intros []; [apply J|]. easy0. destruct (addr_eqb _ _); [|apply easy_Done]. easy0. apply J. }
    unfold body_of in K. destruct (atyp (address_of p)) eqn:Ea; try apply easy_Done; apply K; cbn; auto.
  Qed.
  Lemma easy_service : easy (executeServiceP E).
  Proof.
    destruct Hp as (_ & _ & H3). assert (L : length (skipn 0 p) = length p) by reflexivity. unfold executeServiceP. easy2. apply easy_bind; [|intros _; apply easy_Done].
    destruct (_ =? 0); [apply easy_Done|]. easy2. destruct (negb _); [apply easy_serviceMode|]. apply easy_size. destruct (_ =? 3)%nat; [apply easy_register; lia|].
    apply easy_size. destruct (Nat.eqb_spec (length (skipn 0 p)) 4); [apply easy_cvLong; lia|apply easy_Done].
  Qed.
  Theorem sure_handle : forall g, in_order g -> sure (handleP E) g (fun _ g' => in_order g').
  Proof.
    intros g Hg. unfold handleP. apply (sure_bind _ _ _ _ _ _ _ (easy_adr g Hg)). intros _ g1 ->. apply (sure_bind _ _ _ _ _ _ _ (easy_logonStore g Hg)). intros _ g1 ->.
    apply (sure_bind _ _ _ _ _ _ _ (easy_qos g Hg)). intros _ g1 ->. apply (sure_bind _ _ _ _ _ _ _ (sure_times g Hg)). intros _ g1 Hg1.
    apply sure_rd. intros r _ _. destruct (service_mode _); [apply (sure_post _ _ _ _ _ (easy_service g1 Hg1))|apply (sure_post _ _ _ _ _ (easy_operations g1 Hg1))]; intros a g' ->; exact Hg1.
  Qed.
End Sure.
