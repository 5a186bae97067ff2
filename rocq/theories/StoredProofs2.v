(** Storing an assigned address: the steps of execute(). *)
From Verif Require Import Prelude Address Instruction Checksum Datagram RxState Rx ZBits RxLogic RxInv SpecCodec SpecRx RxBitProofs RxBitProofs4
  SpecExec ExecProofs SpecConf SpecCv SpecLogon SaneProofs Preempt PreemptData SpecPreempt PreemptProofs PreemptProofs2 PreemptProofs4 StaleProofs
  OfferProofs PreemptLoop SpecLoop LoopProofs SpecStored StoredProofs.

Section Tame.
  Context {I : Type} (E : Env I).
  Implicit Types s : st I.

  (** Steps that leave alone what the decoder has been told and the CVs of automatic logon *)
  Definition soft {B} (m : M (I := I) B) : Prop := forall s b s' es, bytes (rxs s) -> m s = Ok (b, s', es) ->
    bytes (rxs s') /\ memo (rxs s') = memo (rxs s) /\ Forall mild es.
  Fixpoint tame {A} (P : prog (I := I) A) : Prop :=
    match P with
    | Done _ => True
    | Act B m k => soft m /\ forall b, (exists s s' es, bytes (rxs s) /\ m s = Ok (b, s', es)) -> tame (k b)
    end.
  Lemma tame_bind : forall A C (P : prog A) (k : A -> prog C), tame P -> (forall a, tame (k a)) -> tame (pbind P k).
  Proof.
    intros A C P k. induction P as [a|B m h IH]; intros HP Hk; cbn [pbind tame] in *; [apply Hk|].
    destruct HP as [Hm Hh]. split; [exact Hm|]. intros b Hb. apply IH; auto.
  Qed.
  Lemma tame_act : forall B (m : M B), soft m -> tame (act m).
  Proof. intros B m H. split; [exact H|]. intros. exact Logic.I. Qed.
  Lemma tame_when : forall b (P : prog unit), tame P -> tame (whenP b P).
  Proof. intros [] P H; [exact H|exact Logic.I]. Qed.
  Lemma tame_local : forall A (m : res A), tame (local m).
  Proof. intros A [a|u]; [exact Logic.I|]. apply tame_act. intros s b s' es _ H. discriminate. Qed.
  Lemma soft_gets : forall X (f : rx -> X), soft (gets f).
  Proof. intros X f s b s' es Hb H. inversion H; subst. auto. Qed.
  Lemma tame_rd : forall X A (f : rx -> X) (k : X -> prog A), (forall r, bytes r -> tame (k (f r))) -> tame (pbind (rd f) k).
  Proof.
    intros X A f k Hk. split; [apply soft_gets|]. intros b (s & s' & es & Hb & H). inversion H; subst. exact (Hk _ Hb).
  Qed.
  Lemma tame_byt : forall A off i (k : Z -> prog A), (forall b, byte b -> tame (k b)) -> tame (pbind (byt off i) k).
  Proof.
    intros A off i k Hk. split.
    - intros s b s' es Hb H. unfold front_at in H. destruct (r_deque (rxs s)); [discriminate|]. destruct (nth_error _ _); inversion H; subst. auto.
    - intros b (s & s' & es & (_ & Hb & _) & H). unfold front_at in H. destruct (r_deque (rxs s)) as [|p q]; [discriminate|].
      destruct (nth_error (skipn off p) i) as [x|] eqn:En; inversion H; subst. apply Hk. inversion Hb as [|? ? Hp _]; subst.
      apply (Forall_nth (skipn off p) i); [apply Forall_skipn_byte; exact Hp|exact En].
  Qed.
  Lemma soft_keeps : forall B (m : M B), keeps stuff m -> keeps memo m -> emits mild m -> soft m.
  Proof.
    intros B m K1 K2 K3 s b s' es Hb H. split; [exact (bytes_keeps _ m K1 _ _ _ _ H Hb)|]. split; [exact (K2 _ _ _ _ H)|exact (K3 _ _ _ _ H)].
  Qed.
  Lemma mild_other : forall e, access_of e = [] -> mild e.
  Proof. intros e H x Hx. rewrite H in Hx. contradiction. Qed.
  Lemma soft_write : forall a v, spares a -> soft (writeCv E a v).
  Proof. intros a v Ha. apply soft_keeps; [keeps_tac|keeps_tac|]. emits_tac. intros x [<-|[]] _. exact Ha. Qed.
  Lemma soft_writeBit : forall a b k, spares a -> soft (writeCvBit E a b k).
  Proof. intros a b k Ha. apply soft_keeps; [keeps_tac|keeps_tac|]. emits_tac. intros x [<-|[]] _. exact Ha. Qed.
  Lemma soft_ask : forall e c, mild e -> soft (ask E e c).
  Proof.
    intros e c He s b s' es Hb H. unfold ask in H. destruct (e_async _ _ _) as [[v|] i]; inversion H; subst; cbn [rxs]; (split; [exact Hb|]); (split; [reflexivity|]);
      (constructor; [exact He|constructor]).
  Qed.
  Lemma soft_wr : forall f, (forall r, stuff (f r) = stuff r) -> (forall r, memo (f r) = memo r) -> soft (modify (I := I) f).
  Proof. intros f H1 H2. apply soft_keeps; [apply keeps_modify; exact H1|apply keeps_modify; exact H2|]. emits_tac. Qed.
  Lemma soft_index : forall b, byte b -> soft (modify (I := I) (set_index_reg b)).
  Proof. intros b Hb s u s' es (H1 & H2 & _) H. unfold modify in H. inversion H; subst. split; [split; [exact H1|split; [exact H2|exact Hb]]|]. split; [reflexivity|constructor]. Qed.
  Lemma soft_call : forall e, mild e -> soft (call E e).
  Proof. intros e H. apply soft_keeps; [keeps_tac|keeps_tac|]. apply emits_call. exact H. Qed.
  Lemma soft_reads : forall B (m : M B), (forall X (f : rx -> X), keeps f m) -> emits mild m -> soft m.
  Proof. intros B m H1 H2. apply soft_keeps; auto. Qed.

  Ltac fr f := intros; intros s b s' es Hb X; unfold f in X; destruct (r_deque (rxs s)); [discriminate|];
    try match type of X with match ?c with _ => _ end = _ => destruct c; [|discriminate] end; inversion X; subst; auto.
  Lemma soft_front : soft front. Proof. fr @front. Qed.
  Lemma soft_front_size : forall off, soft (front_size off). Proof. fr @front_size. Qed.
  Lemma soft_front_address : soft front_address. Proof. fr @front_address. Qed.
  Lemma soft_front_instruction : forall off, soft (front_instruction off). Proof. fr @front_instruction. Qed.

  Ltac mo := apply mild_other; reflexivity.
  Ltac soft1 :=
    lazymatch goal with
    | |- soft (gets _) => apply soft_gets
    | |- soft (call _ _) => apply soft_call; mo
    | |- soft (modify (set_index_reg _)) => apply soft_index; assumption
    | |- soft (modify _) => apply soft_wr; intro; reflexivity
    | |- soft (readCv _ _) => apply soft_reads; [intros; apply keeps_readCv|apply emits_readCv; intro; mo]
    | |- soft (readCvByte _ _ _) => apply soft_reads; [intros; apply keeps_readCvByte|apply emits_readCvByte; intro; intros ? [<-|[]] ?; discriminate]
    | |- soft (readCvBit _ _ _ _) => apply soft_reads; [intros; apply keeps_readCvBit|apply emits_readCvBit; intro; intros ? [<-|[]] ?; discriminate]
    | |- soft (rand _) => apply soft_reads; [intros; apply keeps_rand|apply emits_rand]
    | |- soft (now _) => apply soft_reads; [intros; apply keeps_now|apply emits_now]
    | |- soft (writeCv _ _ _) => apply soft_write
    | |- soft (writeCvBit _ _ _ _) => apply soft_writeBit
    | |- soft (ask _ _ _) => apply soft_ask
    | |- soft front => apply soft_front
    | |- soft (front_size _) => apply soft_front_size
    | |- soft front_address => apply soft_front_address
    | |- soft (front_instruction _) => apply soft_front_instruction
    end.
  Ltac tame1 :=
    lazymatch goal with
    | |- tame (pbind (byt _ _) _) => apply tame_byt; intros ? ?
    | |- tame (pbind (rd _) _) => apply tame_rd; intros ? ?
    | |- tame (pbind _ _) => apply tame_bind; [|intro]
    | |- tame (Done _) => exact Logic.I
    | |- tame (act _) => apply tame_act
    | |- tame (local _) => apply tame_local
    | |- tame (whenP _ _) => apply tame_when
    | |- tame (if ?b then _ else _) => destruct b eqn:?
    | |- tame (match ?x with _ => _ end) => destruct x
    | |- tame (let _ := _ in _) => cbv zeta
    | |- tame ?P => let h := head_of P in unfold h
    end.
  Lemma tame_init : tame (initP E). Proof. repeat tame1; soft1. Qed.
  Lemma tame_run_cb : forall c v, tame (run_cbP E c v). Proof. intros. repeat tame1; soft1. Qed.
  Lemma tame_cb_byte : forall b v, tame (cb_byteP E b v). Proof. intros. repeat tame1; soft1. Qed.
  Lemma tame_cb_bit : forall b v, tame (cb_bitP E b v). Proof. intros. repeat tame1; soft1. Qed.
  Ltac tame2 :=
    lazymatch goal with
    | |- tame (initP _) => apply tame_init
    | |- tame (run_cbP _ _ _) => apply tame_run_cb
    | |- tame (cb_byteP _ _ _) => apply tame_cb_byte
    | |- tame (cb_bitP _ _ _) => apply tame_cb_bit
    | _ => tame1
    end.
  Lemma tame_cvWrite : forall a b, spares a -> tame (cvWriteP E a b).
  Proof. intros. repeat tame2; soft1; try assumption; intros ? [<-|[]] ?; assumption. Qed.
  Lemma tame_cvWriteBit : forall a b o, spares a -> tame (cvWriteBitP E a b o).
  Proof. intros. repeat tame2; soft1; try assumption; intros ? [<-|[]] ?; assumption. Qed.
  Lemma tame_cvVerify : forall a b, tame (cvVerifyP E a b).
  Proof. intros. repeat tame2; soft1; intros ? [<-|[]] ?; discriminate. Qed.
  Lemma tame_cvVerifyBit : forall a b o, tame (cvVerifyBitP E a b o).
  Proof. intros. repeat tame2; soft1; intros ? [<-|[]] ?; discriminate. Qed.
  Lemma spares_long : forall b0 b1, byte b1 -> spares (Z.lor (Z.shiftl (Z.land b0 3) 8) b1).
  Proof.
    intros b0 b1 H. unfold spares. change 3 with (2 ^ 2 - 1). rewrite land_mask by lia. rewrite Z.shiftl_mul_pow2 by lia. rewrite lor_add by (unfold byte in H; cbn; lia).
    pose proof (Z.mod_pos_bound b0 (2 ^ 2)). unfold byte in H. lia.
  Qed.
  Ltac tame3 :=
    lazymatch goal with
    | |- tame (cvWriteP _ _ _) => apply tame_cvWrite
    | |- tame (cvWriteBitP _ _ _ _) => apply tame_cvWriteBit
    | |- tame (cvVerifyP _ _ _) => apply tame_cvVerify
    | |- tame (cvVerifyBitP _ _ _ _) => apply tame_cvVerifyBit
    | _ => tame1
    end.
  Lemma tame_cvLong : forall a o, tame (cvLongP E a o).
  Proof. intros. repeat tame3; try (apply spares_long; assumption); soft1. Qed.
  Ltac tame4 :=
    lazymatch goal with
    | |- tame (cvLongP _ _ _) => apply tame_cvLong
    | |- spares _ => unfold spares; lia
    | _ => tame3
    end.
  Lemma tame_cvShort : forall a o, tame (cvShortP E a o). Proof. intros. repeat tame4; soft1. Qed.
  Lemma spares_page : forall r b, bytes r -> (Z.land b 7 <=? 3) = true -> spares (u32 (index_reg (r_cv r) * 4 - (4 - Z.land b 7))).
  Proof.
    intros r b (_ & _ & H) Hr. unfold byte in H. apply Z.leb_le in Hr. assert (Hn : 0 <= Z.land b 7) by (apply Z.land_nonneg; right; lia).
    unfold spares, u32. set (x := index_reg (r_cv r) * 4 - (4 - Z.land b 7)). assert (-4 <= x <= 1020) by (unfold x; lia). clearbody x.
    destruct (Z_lt_le_dec x 0); [|rewrite Z.mod_small; lia]. replace (x mod 4294967296) with (x + 4294967296); [lia|].
    apply (Z.mod_unique x 4294967296 (-1)); lia.
  Qed.
  Lemma spares_reg : forall b, (Z.land b 7 <=? 3) = false -> spares (Z.land b 7).
  Proof. intros b _. unfold spares. change 7 with (2 ^ 3 - 1). rewrite land_mask by lia. pose proof (Z.mod_pos_bound b (2 ^ 3)). lia. Qed.
  Lemma tame_register : forall o, tame (registerModeP E o).
  Proof. intros. repeat tame4; try (apply spares_page; assumption); try (apply spares_reg; assumption); soft1. Qed.
  Ltac tame5 :=
    lazymatch goal with
    | |- tame (cvShortP _ _ _) => apply tame_cvShort
    | |- tame (registerModeP _ _) => apply tame_register
    | _ => tame4
    end.
  Lemma tame_advanced : forall a o, tame (advancedOperationsP E a o). Proof. intros. repeat tame5; soft1. Qed.
  Lemma tame_instruct : forall a o, tame (instructP E a o).
  Proof. intros. repeat lazymatch goal with |- tame (advancedOperationsP _ _ _) => apply tame_advanced | _ => tame5 end; soft1. Qed.
  Lemma tame_operations : tame (executeOperationsP E).
  Proof. repeat lazymatch goal with |- tame (instructP _ _ _) => apply tame_instruct | _ => tame5 end; soft1. Qed.
  Lemma tame_service : tame (executeServiceP E). Proof. repeat tame5; soft1. Qed.
  Lemma tame_adr : tame adrP. Proof. repeat tame1; soft1. Qed.
  Definition restP : prog (I := I) bool :=
    pbind updateQosP (fun _ => pbind (updateTimepointsP E) (fun _ =>
    pbind (rd (fun r => service_mode (r_cv r))) (fun sm => if sm : bool then executeServiceP E else executeOperationsP E))).
  Lemma tame_rest : tame restP.
  Proof.
    unfold restP. repeat lazymatch goal with |- tame (executeServiceP _) => apply tame_service | |- tame (executeOperationsP _) => apply tame_operations | _ => tame1 end; soft1.
  Qed.
  Lemma soft_pop : soft (@popFront I).
  Proof.
    intros s b s' es Hb H. unfold popFront in H. rewrite bind_get in H. destruct (r_deque (rxs s)) as [|p q] eqn:Eq; [discriminate|].
    unfold modify in H. inversion H; subst. destruct Hb as (H1 & H2 & H3). rewrite Eq in H2. inversion H2; subst. cbn [rxs]. split; [split; [exact H1|split; assumption]|].
    split; [reflexivity|constructor].
  Qed.
End Tame.
