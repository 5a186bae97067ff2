(** Interrupts do not change what an execution does. *)
From Verif Require Import Prelude Address RxState Rx RxLogic SpecRx RxBitProofs RxBitProofs3 RxBitProofs4 ExecProofs Preempt SpecPreempt PreemptProofs PreemptProofs2.

(** What interrupts leave alone: everything but the bit receiver, the queue, the
    counters, the address received last, the BiDi queues and the logon answer *)
Definition mask (r : rx) :=
  (primary (r_addrs r), consist (r_addrs r), logon (r_addrs r), r_conf r, r_cv r, r_time r,
   (logon_selected (r_logon r), logon_assigned (r_logon r), logon_store (r_logon r),
    cid_front (r_logon r), cid_back (r_logon r), sid_front (r_logon r), sid_back (r_logon r),
    logon_backoff (r_logon r))).

Section Blind.
  Context {I : Type} (E : Env I).
  Implicit Types s : st I.

  Definition alike (p : list Z) (s s' : st I) : Prop :=
    mask (rxs s') = mask (rxs s) /\ app s' = app s /\ pending s' = pending s /\
    hd_error (r_deque (rxs s)) = Some p /\ hd_error (r_deque (rxs s')) = Some p /\
    (tos_deque (r_bidi (rxs s)) = [] -> tos_deque (r_bidi (rxs s')) = []).

  (** A step that does the same in both states *)
  Definition blind (p : list Z) (B : Type) (m : M (I := I) B) : Prop :=
    keeps core m /\
    forall s s', alike p s s' ->
    match m s, m s' with
    | Ok (a, s1, e1), Ok (a', s1', e1') =>
        a = a' /\ e1 = e1' /\ alike p s1 s1' /\ Forall (fun e => transmission e = false) e1
    | UB u, UB u' => u = u'
    | _, _ => False
    end.

  Ltac open_alike H :=
    match type of H with alike _ ?s ?s' => destruct s as [r i ps], s' as [r' i' ps'] end;
    destruct H as (Hm & Ha & Hps & Hd & Hd' & Ht); cbn [rxs app pending] in *; subst.

  Lemma blind_gets : forall p X (f : rx -> X),
    (forall r r', mask r' = mask r -> f r' = f r) -> blind p X (gets f).
  Proof.
    intros p X f Hf. split; [intros ? ? ? ? H; inversion H; reflexivity|].
    intros s s' H. open_alike H. unfold gets. cbn [rxs].
    rewrite (Hf r r' Hm). repeat split; auto.
  Qed.
  Lemma blind_modify : forall p (f : rx -> rx),
    (forall r r', mask r' = mask r -> mask (f r') = mask (f r)) ->
    (forall r, core (f r) = core r) ->
    (forall r r', (tos_deque (r_bidi r) = [] -> tos_deque (r_bidi r') = []) ->
       tos_deque (r_bidi (f r)) = [] -> tos_deque (r_bidi (f r')) = []) ->
    blind p unit (modify f).
  Proof.
    intros p f Hf Hc Hto. split; [apply keeps_modify; exact Hc|].
    intros s s' H. open_alike H. unfold modify. cbn [rxs app pending].
    pose proof (Hc r) as C1. pose proof (Hc r') as C2. unfold core in C1, C2.
    injection C1 as _ C1 _. injection C2 as _ C2 _.
    split; [reflexivity|]. split; [reflexivity|]. split; [|constructor].
    unfold alike. cbn [rxs app pending]. rewrite C1, C2. repeat split; auto.
    apply Hto. exact Ht.
  Qed.
  (** A call whose answer depends on the application only *)
  Lemma blind_ask : forall p B (m : M (I := I) B) (f : I -> list pend -> B * I * list pend * list event),
    (forall r i ps, m (Mk_st r i ps) = let '(b, i', ps', es) := f i ps in Ok (b, Mk_st r i' ps', es)) ->
    (forall i ps, Forall (fun e => transmission e = false) (snd (f i ps))) ->
    blind p B m.
  Proof.
    intros p B m f Hf Hn. split.
    - intros [r i ps] a s' es H. rewrite Hf in H. destruct (f i ps) as [[[b i'] ps'] e].
      inversion H; subst. reflexivity.
    - intros s s' H. open_alike H. rewrite !Hf.
      match goal with |- context [f ?i ?ps] => specialize (Hn i ps); destruct (f i ps) as [[[b j] qs] e] end. cbn [snd] in Hn. repeat split; auto.
  Qed.
  Lemma blind_fail : forall p B u, blind p B (fail u).
  Proof. intros p B u. split; [apply keeps_fail|]. intros s s' H. reflexivity. Qed.
  Lemma blind_front : forall p, blind p _ front.
  Proof.
    intros p. split; [intros s ? ? ? H; unfold front in H; destruct (r_deque (rxs s)); inversion H; reflexivity|].
    intros s s' H. open_alike H. unfold front. cbn [rxs].
    destruct (r_deque r) as [|x d] eqn:E1, (r_deque r') as [|x' d'] eqn:E2; try discriminate.
    injection Hd as ->. injection Hd' as ->. unfold alike. cbn [rxs app pending]. rewrite E1, E2. repeat split; auto.
  Qed.
  Lemma blind_front_f : forall p B (g : list Z -> res B) (m : M (I := I) B),
    (forall s, m s = match r_deque (rxs s) with
                     | q :: _ => match g q with Ok b => Ok (b, s, []) | UB u => UB u end
                     | [] => UB OutOfBounds
                     end) ->
    blind p B m.
  Proof.
    intros p B g m Hg. split.
    - intros s a s' es H. rewrite Hg in H. destruct (r_deque (rxs s)) as [|q d]; [discriminate|].
      destruct (g q); inversion H; reflexivity.
    - intros s s' H. rewrite !Hg. open_alike H. cbn [rxs].
      destruct (r_deque r) as [|x d] eqn:E1, (r_deque r') as [|x' d'] eqn:E2; try discriminate.
      injection Hd as ->. injection Hd' as ->. destruct (g p); [|reflexivity].
      unfold alike. cbn [rxs app pending]. rewrite E1, E2. repeat split; auto.
  Qed.
  Lemma blind_front_at : forall p off i, blind p _ (front_at off i).
  Proof.
    intros p off i. apply (blind_front_f p _ (fun q => match nth_error (skipn off q) i with Some b => Ok b | None => UB OutOfBounds end)).
    intros s. unfold front_at. destruct (r_deque (rxs s)); [reflexivity|]. destruct (nth_error _ _); reflexivity.
  Qed.
  Lemma blind_front_size : forall p off, blind p _ (front_size off).
  Proof.
    intros p off. apply (blind_front_f p _ (fun q => Ok (length (skipn off q)))).
    intros s. unfold front_size. destruct (r_deque (rxs s)); reflexivity.
  Qed.
  Lemma blind_front_address : forall p, blind p _ front_address.
  Proof.
    intros p. apply (blind_front_f p _ decode_address).
    intros s. unfold front_address. destruct (r_deque (rxs s)); reflexivity.
  Qed.
  Lemma blind_front_instruction : forall p off, blind p _ (front_instruction off).
  Proof.
    intros p off. apply (blind_front_f p _ (fun q => Instruction.decode_instruction (skipn off q))).
    intros s. unfold front_instruction. destruct (r_deque (rxs s)); reflexivity.
  Qed.

  Ltac callish f := apply (blind_ask _ _ _ f);
    [intros; cbv beta; unfold readCv, readCvByte, readCvBit, writeCv, writeCvBit, call, rand, now; cbn [rxs app pending];
     try (match goal with |- context [let '(_, _) := ?x in _] => destruct x end); reflexivity
    |intros; cbv beta; repeat (match goal with |- context [let '(_, _) := ?x in _] => destruct x end);
     cbn [snd]; repeat constructor; auto].
  Lemma blind_readCv : forall p cv, blind p _ (readCv E cv).
  Proof. intros. callish (fun i (ps : list pend) => let '(v, i') := e_readCv E i cv in (u8 v, i', ps, [EReadCv cv (u8 v)])). Qed.
  Lemma blind_readCvByte : forall p cv b, blind p _ (readCvByte E cv b).
  Proof. intros. callish (fun i (ps : list pend) => let '(v, i') := e_readCvByte E i cv b in (u8 v, i', ps, [EReadCvByte cv b (u8 v)])). Qed.
  Lemma blind_readCvBit : forall p cv b o, blind p _ (readCvBit E cv b o).
  Proof. intros. callish (fun i (ps : list pend) => let '(v, i') := e_readCvBit E i cv b o in (v, i', ps, [EReadCvBit cv b o v])). Qed.
  Lemma blind_writeCv : forall p cv b, blind p _ (writeCv E cv b).
  Proof. intros. callish (fun i (ps : list pend) => let '(v, i') := e_writeCv E i cv b in (u8 v, i', ps, [EWriteCv cv b (u8 v)])). Qed.
  Lemma blind_writeCvBit : forall p cv b o, blind p _ (writeCvBit E cv b o).
  Proof. intros. callish (fun i (ps : list pend) => let '(v, i') := e_writeCvBit E i cv b o in (v, i', ps, [EWriteCvBit cv b o v])). Qed.
  Lemma blind_call : forall p e, transmission e = false -> blind p _ (call E e).
  Proof. intros p e He. callish (fun i (ps : list pend) => (tt, e_hook E i e, ps, [e])). Qed.
  Lemma blind_rand : forall p, blind p _ (rand E).
  Proof. intros. callish (fun i (ps : list pend) => let '(v, i') := e_rand E i in (v, i', ps, @nil event)). Qed.
  Lemma blind_now : forall p, blind p _ (now E).
  Proof. intros. callish (fun i (ps : list pend) => let '(v, i') := e_now E i in (v, i', ps, @nil event)). Qed.
  Lemma blind_async : forall p e c, transmission e = false -> blind p _ (ask E e c).
  Proof.
    intros p e c He.
    apply (blind_ask _ _ _ (fun i ps => let '(v, i') := e_async E i e in
      match v with Some x => (Some x, i', ps, [e]) | None => (None, i', ps ++ [c], [e]) end)).
    - intros r i ps. unfold ask. cbn [rxs app pending]. destruct (e_async E i e) as [[v|] i']; reflexivity.
    - intros i ps. destruct (e_async E i e) as [[v|] i']; cbn [snd]; repeat constructor; auto.
  Qed.
End Blind.

Ltac masked := intros; unfold mask in *; cbn in *;
  repeat match goal with H : (_, _) = (_, _) |- _ => injection H; clear H; intros end; congruence.
Ltac blind_leaf :=
  lazymatch goal with
  | |- blind _ _ (gets _) => apply blind_gets; masked
  | |- blind _ _ (modify _) => apply blind_modify; [masked|intros; reflexivity|cbn; auto]
  | |- blind _ _ (readCv _ _) => apply blind_readCv
  | |- blind _ _ (readCvByte _ _ _) => apply blind_readCvByte
  | |- blind _ _ (readCvBit _ _ _ _) => apply blind_readCvBit
  | |- blind _ _ (writeCv _ _ _) => apply blind_writeCv
  | |- blind _ _ (writeCvBit _ _ _ _) => apply blind_writeCvBit
  | |- blind _ _ (call _ _) => apply blind_call; reflexivity
  | |- blind _ _ (rand _) => apply blind_rand
  | |- blind _ _ (now _) => apply blind_now
  | |- blind _ _ (ask _ _ _) => apply blind_async
  | |- blind _ _ (fail _) => apply blind_fail
  | |- blind _ _ front => apply blind_front
  | |- blind _ _ (front_at _ _) => apply blind_front_at
  | |- blind _ _ (front_size _) => apply blind_front_size
  | |- blind _ _ front_address => apply blind_front_address
  | |- blind _ _ (front_instruction _) => apply blind_front_instruction
  end.

Section BlindActs.
  Context {I : Type} (E : Env I) (p : list Z).
  Lemma b_init : acts (@blind I p) (initP E). Proof. acts_tac; blind_leaf. Qed.
  Lemma b_cb_byte : forall b v, acts (@blind I p) (cb_byteP E b v). Proof. intros. acts_tac; blind_leaf. Qed.
  Lemma b_cb_bit : forall b v, acts (@blind I p) (cb_bitP E b v). Proof. intros. acts_tac; blind_leaf. Qed.
  Lemma b_run_cb : forall c v, acts (@blind I p) (run_cbP E c v).
  Proof. intros [b|b] v; [apply b_cb_byte|apply b_cb_bit]. Qed.
  Lemma b_store : acts (@blind I p) (logonStoreP E). Proof. acts_tac; blind_leaf. Qed.
  Lemma b_times : acts (@blind I p) (updateTimepointsP E). Proof. acts_tac; blind_leaf. Qed.
  Ltac acts2 :=
    lazymatch goal with
    | |- acts _ (initP _) => apply b_init
    | |- acts _ (run_cbP _ _ _) => apply b_run_cb
    | |- acts _ (cb_byteP _ _ _) => apply b_cb_byte
    | |- acts _ (cb_bitP _ _ _) => apply b_cb_bit
    | _ => acts1
    end.
  Ltac bl := blind_leaf; try reflexivity.
  Lemma b_cvWrite : forall a b, acts (@blind I p) (cvWriteP E a b). Proof. intros. repeat acts2; bl. Qed.
  Lemma b_cvWriteBit : forall a b o, acts (@blind I p) (cvWriteBitP E a b o). Proof. intros. repeat acts2; bl. Qed.
  Lemma b_cvVerify : forall a b, acts (@blind I p) (cvVerifyP E a b). Proof. intros. repeat acts2; bl. Qed.
  Lemma b_cvVerifyBit : forall a b o, acts (@blind I p) (cvVerifyBitP E a b o). Proof. intros. repeat acts2; bl. Qed.
  Ltac acts3 :=
    lazymatch goal with
    | |- acts _ (cvWriteP _ _ _) => apply b_cvWrite
    | |- acts _ (cvWriteBitP _ _ _ _) => apply b_cvWriteBit
    | |- acts _ (cvVerifyP _ _ _) => apply b_cvVerify
    | |- acts _ (cvVerifyBitP _ _ _ _) => apply b_cvVerifyBit
    | _ => acts1
    end.
  Lemma b_cvLong : forall a o, acts (@blind I p) (cvLongP E a o). Proof. intros. repeat acts3; bl. Qed.
  Lemma b_cvShort : forall a o, acts (@blind I p) (cvShortP E a o). Proof. intros. repeat acts3; bl. Qed.
  Lemma b_registerMode : forall o, acts (@blind I p) (registerModeP E o). Proof. intros. repeat acts3; bl. Qed.
  Lemma b_serviceMode : forall b, acts (@blind I p) (serviceModeP E b). Proof. intros. repeat acts3; bl. Qed.
  Lemma b_consistControl : forall o, acts (@blind I p) (consistControlP E o). Proof. intros. repeat acts3; bl. Qed.
  Lemma b_advanced : forall a o, acts (@blind I p) (advancedOperationsP E a o). Proof. intros. repeat acts3; bl. Qed.
  Lemma b_speed : forall a o, acts (@blind I p) (speedAndDirectionP E a o). Proof. intros. repeat acts3; bl. Qed.
  Lemma b_function : forall a o, acts (@blind I p) (functionGroupP E a o). Proof. intros. repeat acts3; bl. Qed.
  Lemma b_tos_test : acts (@blind I p) (tos_testP E).
  Proof. repeat acts3; bl. Qed.
End BlindActs.

Section Interrupts.
  Context {I : Type} (E : Env I).
  Hypothesis deaf : forall i d, e_hook E i (ETransmitBiDi d) = i.
  Implicit Types s : st I.

  (** A handler that leaves alone what execute() uses *)
  Definition leaves {A} (m : M (I := I) A) : Prop :=
    forall s a s' es, m s = Ok (a, s', es) ->
    mask (rxs s') = mask (rxs s) /\ core (rxs s') = core (rxs s) /\ app s' = app s /\
    pending s' = pending s /\ Forall (fun e => transmission e = true) es /\
    (tos_deque (r_bidi (rxs s)) = [] -> tos_deque (r_bidi (rxs s')) = []).

  Lemma leaves_ret : forall A (a : A), leaves (ret a).
  Proof. intros A a s b s' es H. inversion H; subst. repeat split; auto. Qed.
  Lemma leaves_fail : forall A u, leaves (fail (A := A) u).
  Proof. intros A u s b s' es H. discriminate. Qed.
  Lemma leaves_lift : forall A (m : res A), leaves (lift m).
  Proof. intros A [a|u] s b s' es H; inversion H; subst; repeat split; auto. Qed.
  Lemma leaves_get : leaves get.
  Proof. intros s b s' es H. inversion H; subst. repeat split; auto. Qed.
  Lemma leaves_bind : forall A B (m : M A) (k : A -> M B),
    leaves m -> (forall a, leaves (k a)) -> leaves (bind m k).
  Proof.
    intros A B m k Hm Hk s b s' es H. apply bind_inv in H.
    destruct H as (a & s1 & e1 & e2 & H1 & H2 & ->).
    destruct (Hm _ _ _ _ H1) as (A1 & A2 & A3 & A4 & A5 & A6).
    destruct (Hk _ _ _ _ _ H2) as (B1 & B2 & B3 & B4 & B5 & B6).
    repeat split; try congruence; auto. apply Forall_app. split; assumption.
  Qed.
  Lemma leaves_modify : forall g,
    (forall r, mask (g r) = mask r) -> (forall r, core (g r) = core r) ->
    (forall r, tos_deque (r_bidi r) = [] -> tos_deque (r_bidi (g r)) = []) -> leaves (modify g).
  Proof. intros g H1 H2 H3 s b s' es H. inversion H; subst. cbn [rxs app pending]. repeat split; auto. Qed.
  Lemma leaves_call : forall d, leaves (call E (ETransmitBiDi d)).
  Proof.
    intros d s b s' es H. unfold call in H. rewrite deaf in H. inversion H; subst. cbn [rxs app pending].
    repeat split; auto.
  Qed.

  Ltac leaves_tac := repeat lazymatch goal with
    | |- leaves (bind _ _) => apply leaves_bind; [|intro]
    | |- leaves (ret _) => apply leaves_ret
    | |- leaves (fail _) => apply leaves_fail
    | |- leaves (lift _) => apply leaves_lift
    | |- leaves get => apply leaves_get
    | |- leaves (call _ _) => apply leaves_call
    | |- leaves (modify _) => apply leaves_modify; [reflexivity|reflexivity|cbn; auto]
    | |- leaves (if ?b then _ else _) => destruct b
    | |- leaves (match ?x with _ => _ end) => destruct x
    | |- leaves (let _ := _ in _) => cbv zeta
    | |- leaves ?m => let h := head_of m in unfold h
    end.

  Lemma leaves_appTos : leaves (appTos E).
  Proof.
    intros s b s' es H. unfold appTos in H. rewrite bind_get in H.
    destruct (tos_deque (r_bidi (rxs s))) as [|d q] eqn:Et.
    { inversion H; subst. repeat split; auto. }
    unfold bind, modify, get, call in H. cbn [rxs app pending] in H. rewrite deaf in H. inversion H; subst.
    cbn [rxs app pending]. repeat split; auto. discriminate.
  Qed.
  Lemma leaves_biDi1 : leaves (biDiChannel1 E).
  Proof. leaves_tac. Qed.
  Lemma leaves_biDi2 : leaves (biDiChannel2 E).
  Proof.
    unfold biDiChannel2. apply leaves_bind; [apply leaves_get|intro r]. cbv zeta.
    destruct (atyp (received (r_addrs r))); try apply leaves_appTos; leaves_tac.
  Qed.

  (** Receiving a half bit that does not complete a logon packet *)
  Lemma receive_leaves : forall l s t s' es, Rl l s ->
    match completed (OReceive t) l with Some bs => is_logon bs = false | None => True end ->
    receive E t s = Ok (tt, s', es) ->
    mask (rxs s') = mask (rxs s) /\ app s' = app s /\ pending s' = pending s /\ es = [] /\
    tos_deque (r_bidi (rxs s')) = tos_deque (r_bidi (rxs s)).
  Proof.
    intros l s t s' es (HI & Hq & Hf & Ho & Hl) Hlg H. rewrite receive_machine in H.
    destruct (half_bit t) as [b|] eqn:Et.
    2: { unfold machine in H. rewrite Et in H. inversion H; subst. repeat split. }
    pose proof (machine_sim (l_heard l) (r_fsm (rxs s)) (full s) b t HI Et) as Hs. cbv zeta in Hs.
    cbn [completed] in Hlg. rewrite Et in Hlg. cbv zeta in Hlg. rewrite <- Hq in Hlg.
    change (length (r_deque (rxs s)) =? 31)%nat with (full s) in Hlg.
    destruct (machine (full s) (r_fsm (rxs s)) t) as [f a] eqn:Em. cbn [fst snd] in Hs.
    destruct a.
    1, 2, 4, 5: try discriminate; inversion H; subst; repeat split.
    destruct (looked_at (l_heard l ++ [b]) && full s) eqn:El; [destruct Hs; discriminate|].
    destruct (reading (l_heard l ++ [b])) as [| |bs] eqn:Er.
    - destruct Hs as [[Hs _]|[[Hs|Hs] _]]; discriminate.
    - destruct Hs; discriminate.
    - destruct Hs as (Hby & Hlen & Hs). destruct (valid_packet bs) eqn:Ev; [|destruct Hs; discriminate].
      destruct Hs as [_ Hpk].
      destruct (accept_sounds _ _ _ _ _ _ HI Et Em) as (_ & Hby' & Hlen' & _).
      rewrite accept_ordinary in H; unfold with_fsm; cbn [rxs r_fsm set_r_fsm r_deque]; auto;
        [inversion H; subst; repeat split|lia|rewrite Hpk; exact Hlg|].
      destruct (full s) eqn:Efl; [exfalso|].
      + clear - Em Et. unfold machine in Em. rewrite Et in Em. unfold machine_bit in Em.
        destruct (f_state (upd_f_packet_end false (r_fsm (rxs s)))); try discriminate;
          destruct (f_is_halfbit _); discriminate.
      + unfold full in Efl. apply Nat.eqb_neq in Efl. rewrite Hq in Efl |- *. lia.
  Qed.
End Interrupts.
