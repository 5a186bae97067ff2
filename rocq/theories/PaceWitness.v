(** Concrete decoders that call execute() just often enough, and just too seldom *)
From Verif Require Import Prelude Address SpecCodec SpecTx Tx CodecProofs2 RxState Rx SpecRx SpecExec SpecConf SpecCv SpecBidi SpecSafe Toy
  SpecLayout SpecLayout2 LayoutWitness SpecStation StationProofs2 StationProofs4 StationWitness SpecPace Stm32 SpecEdges.

Fixpoint within (W e : Z) (os : list op) : bool :=
  match os with
  | [] => true
  | OReceive t :: r => (0 <=? t) && (e + t <? W) && within W (e + t) r
  | OExecute :: r => within W 0 r
  | _ :: r => within W e r
  end.

Lemma within_skip : forall W a os e, 0 < W -> 0 <= e < W -> within W e (a ++ os) = true -> exists e', 0 <= e' < W /\ within W e' os = true.
Proof.
  intros W. induction a as [|o a IH]; intros os e HW He H; [exists e; auto|]. cbn [List.app within] in H.
  destruct o as [| | |t| |ds| | |i v]; try (apply (IH os e HW He H)).
  - apply andb_prop in H. destruct H as [H1 H]. apply andb_prop in H1. apply (IH os (e + t)); [lia|lia|exact H].
  - apply (IH os 0); [lia|lia|exact H].
Qed.

Lemma within_short : forall W b os e, 0 <= e < W -> within W e (b ++ os) = true -> ~ In OExecute b -> e + elapsed b < W.
Proof.
  intros W. induction b as [|o b IH]; intros os e He H Hb; [cbn; lia|].
  assert (Hb' : ~ In OExecute b) by (intro; apply Hb; right; assumption). cbn [List.app within] in H.
  cbn [elapsed fold_right]. fold (elapsed b).
  destruct o as [| | |t| |ds| | |i v]; try (apply (IH os e He H Hb')).
  - apply andb_prop in H. destruct H as [H1 H]. apply andb_prop in H1. specialize (IH os (e + t) ltac:(lia) H Hb'). lia.
  - exfalso. apply Hb. left. reflexivity.
Qed.

Lemma within_ok : forall W os, 0 < W -> within W 0 os = true -> executes_within W os.
Proof.
  intros W os HW H a b c -> Hb.
  assert (Hd : In OExecute b \/ ~ In OExecute b).
  { clear. induction b as [|o b IH]; [right; intros []|]. destruct IH as [IH|IH]; [left; right; exact IH|].
    destruct o; try (right; intros [Hx|Hx]; [discriminate Hx|exact (IH Hx)]). left. left. reflexivity. }
  destruct Hd as [Hi|Hi]; [exact Hi|].
  exfalso. destruct (within_skip W a _ 0 HW ltac:(lia) H) as (e & He & H'). pose proof (within_short W b c e He H' Hi). lia.
Qed.

(** ** One interval less often is too seldom *)

Definition steady (c : tx_config) (n : nat) : list Z :=
  match tx_run (TInit c :: repeat TTransmit n) (tx_init_state 4) with Ok (_ :: xs, _) => map fst (intervals xs) | _ => [] end.

(** Idle packets, execute() right behind the last half bit of each *)
Definition behind_each (c : tx_config) (n : nat) : list op :=
  let k := if cfg_bidi c then 95%nat else 90%nat in prompt (k - 1) 89 (steady c (k * n)).

Lemma too_late : forall bidi, let c := TxConfig 17 58 100 false bidi in let os := behind_each c 31 in
  executes_every (if bidi then 96 else 91) os /\ executes_within (shortest c + 1) os /\ ~ never_full os listener0 /\
  length (heard (behind_each c 40) listener0) = 35%nat.
Proof.
  intros bidi. cbv zeta. split; [|split; [|split]].
  - apply gaps_every. destruct bidi; vm_compute; reflexivity.
  - apply within_ok; destruct bidi; vm_compute; reflexivity.
  - intros H. specialize (H (behind_each (TxConfig 17 58 100 false bidi) 31) [] ltac:(rewrite app_nil_r; reflexivity)).
    assert (length (l_queue (listen_all (behind_each (TxConfig 17 58 100 false bidi) 31) listener0)) = 31%nat)
      by (destruct bidi; vm_compute; reflexivity). lia.
  - destruct bidi; vm_compute; reflexivity.
Qed.

(** ** Measured with errors *)

(** An error of one in 16, up and down in turn *)
Fixpoint shaky (up : bool) (ds : list Z) : list Z :=
  match ds with [] => [] | d :: r => (if up then d + d / 16 else d - d / 16) :: shaky (negb up) r end.

Lemma capture_pos : forall w ti2 since p, Forall (fun d => 0 <= d) (capture ti2 since p w).
Proof.
  induction w as [|(d, p') w IH]; intros ti2 since p; [constructor|]. cbn [capture].
  destruct (if ti2 then _ else _); [|apply IH]. constructor; [apply Z.mod_pos_bound; lia|apply IH].
Qed.

Lemma shaky_off : forall ds up, Forall (fun d => 0 <= d) ds -> Forall2 (off 16) ds (shaky up ds).
Proof.
  induction ds as [|d ds IH]; intros up H; [constructor|]. inversion H as [|? ? H1 H2]; subst. cbn [shaky]. constructor; [|apply IH; exact H2].
  unfold off. pose proof (Z.div_mod d 16 ltac:(lia)). pose proof (Z.mod_pos_bound d 16 ltac:(lia)).
  assert (0 <= d / 16) by (apply Z.div_pos; lia). destruct up; lia.
Qed.

Lemma captured_shaky : forall since xs up, Forall2 (off 16) (captured since xs) (shaky up (captured since xs)).
Proof. intros since xs up. apply shaky_off. apply capture_pos. Qed.

(** Durations with execute() as soon as they have added up to [W] *)
Fixpoint timed (W e : Z) (ts : list Z) : list op :=
  match ts with
  | [] => []
  | t :: r => if e + t <? W then OReceive t :: timed W (e + t) r else OExecute :: OReceive t :: timed W t r
  end.

Lemma timed_receives : forall W ts e, filter is_receive (timed W e ts) = map OReceive ts.
Proof.
  intros W ts. induction ts as [|t ts IH]; intros e; [reflexivity|]. cbn [timed].
  destruct (e + t <? W); cbn [filter is_receive map]; rewrite IH; reflexivity.
Qed.
Lemma timed_plain : forall W ts e, Forall (fun o => match o with OReceive _ | OExecute => True | _ => False end) (timed W e ts).
Proof.
  intros W ts. induction ts as [|t ts IH]; intros e; [constructor|]. cbn [timed].
  destruct (e + t <? W); repeat (constructor; [exact Logic.I|]); apply IH.
Qed.
Lemma timed_on_time : forall W ts e, on_time (timed W e ts).
Proof. intros W ts e. apply plain_on_time. apply timed_plain. Qed.
Lemma timed_no_disable : forall W ts e, ~ In ODisable (timed W e ts).
Proof. intros W ts e H. pose proof (timed_plain W ts e) as Hp. rewrite Forall_forall in Hp. exact (Hp _ H). Qed.
