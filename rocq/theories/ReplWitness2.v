(** A session of a patient user *)
From Verif Require Import Prelude Address Packets SpecCodec SpecTx Tx CodecProofs2 RxState Rx SpecRx SpecExec SpecConf SpecCv
  SpecLayout SpecLayout2 SpecStation StationProofs2 StationWitness Repl SpecRepl ReplProofs ReplProofs4 ReplWitness.

(** ** Checking [attentive] and [unhurried] *)

Definition as_op (o : rstep) : op := match o with RLoop => OReceive 0 | RExecute => OExecute | _ => OEnable end.

Lemma loops_receives : forall b, receives (map as_op b) = loops b.
Proof.
  unfold receives, loops. induction b as [|o b IH]; [reflexivity|]. cbn [map filter].
  destruct o; cbn [as_op is_receive is_loop]; cbn [length]; rewrite ?IH; reflexivity.
Qed.

Lemma gaps_attentive : forall os, gaps 76 0 (map as_op os) = true -> attentive os.
Proof.
  intros os H a b c -> Hb. apply gaps_every in H.
  assert (Hin : In OExecute (map as_op b)).
  { apply (H (map as_op a) (map as_op b) (map as_op c)); [rewrite !map_app; reflexivity|]. fold (receives (map as_op b)).
    rewrite loops_receives. exact Hb. }
  apply in_map_iff in Hin. destruct Hin as (o & Ho & Hin). destruct o; try discriminate Ho. exact Hin.
Qed.

Fixpoint next_late (k : nat) (os : list rstep) : bool :=
  match os with
  | [] => true
  | RType c :: r => if sends c then (785 <=? k)%nat else next_late k r
  | RLoop :: r => next_late (S k) r
  | _ :: r => next_late k r
  end.
Fixpoint waits (os : list rstep) : bool :=
  match os with
  | [] => true
  | RType c :: r => (negb (sends c) || ((1567 <=? loops r)%nat && next_late 0 r)) && waits r
  | _ :: r => waits r
  end.

Lemma next_late_ok : forall b c d k, next_late k (b ++ RType c :: d) = true -> sends c = true -> (785 <= k + loops b)%nat.
Proof.
  induction b as [|o b IH]; intros c d k H Hc.
  - cbn [List.app next_late] in H. rewrite Hc in H. apply Nat.leb_le in H. lia.
  - unfold loops in *. destruct o as [| | |c']; cbn [List.app next_late filter is_loop] in *.
    + exact (IH c d k H Hc).
    + exact (IH c d k H Hc).
    + specialize (IH c d (S k) H Hc). cbn [length]. lia.
    + destruct (sends c'); [apply Nat.leb_le in H; lia|]. exact (IH c d k H Hc).
Qed.

Lemma waits_at : forall a c b, waits (a ++ RType c :: b) = true -> sends c = true -> (1567 <= loops b)%nat /\ next_late 0 b = true.
Proof.
  induction a as [|o a IH]; intros c b H Hc.
  - cbn [List.app waits] in H. rewrite Hc in H. apply andb_prop in H. destruct H as [H _]. cbn [negb orb] in H.
    apply andb_prop in H. destruct H as [H1 H2]. apply Nat.leb_le in H1. auto.
  - destruct o; cbn [List.app waits] in H; try (exact (IH c b H Hc)). apply andb_prop in H. exact (IH c b (proj2 H) Hc).
Qed.

Lemma waits_unhurried : forall os, waits os = true -> unhurried os.
Proof.
  intros os H. split.
  - intros a c1 b c2 d -> H1 H2. destruct (waits_at _ _ _ H H1) as [_ Hn]. pose proof (next_late_ok b c2 d 0 Hn H2). lia.
  - intros a c b -> Hc. apply (waits_at _ _ _ H Hc).
Qed.

(** ** A speed for locomotive 3, a new address in CV1, a CV of the new address *)

Definition session2 : list rstep :=
  RStart :: RType (RSpeed true 42) :: turns 785 ++ RType (RWriteByte 0 5) :: turns 785 ++
  RType (RAddress 5) :: RType (RWriteBit 2 true 1) :: turns 1567.

Lemma session2_typed : forall c, In (RType c) session2 ->
  c = RSpeed true 42 \/ c = RWriteByte 0 5 \/ c = RAddress 5 \/ c = RWriteBit 2 true 1.
Proof.
  intros c H. unfold session2 in H. destruct H as [H|[H|H]]; [discriminate H|left; congruence|]. apply in_app_or in H.
  destruct H as [H|[H|H]]; [destruct (turns_typed _ _ H)|right; left; congruence|]. apply in_app_or in H.
  destruct H as [H|[H|[H|H]]]; [destruct (turns_typed _ _ H)|do 2 right; left; congruence|do 3 right; congruence|destruct (turns_typed _ _ H)].
Qed.

Lemma started_ready : forall os, ready_first (RStart :: os).
Proof. intros os a b H. destruct a as [|o a]; [discriminate H|]. injection H as <- _. left. reflexivity. Qed.
