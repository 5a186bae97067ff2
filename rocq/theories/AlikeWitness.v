(** Applications that give the same answers in different ways *)
From Verif Require Import Prelude Address Packets SpecCodec CodecProofs2 RxState Rx SpecRx SpecCv SpecSafe Toy SpecLayout SpecLayout2 LayoutWitness
  Repl SpecRepl SpecAlike SpecStation.

(** ** CVs kept as a list of what was written, the latest first *)

Fixpoint latest (l : list (Z * Z)) (a : Z) : Z :=
  match l with [] => factory a | (x, v) :: r => if a =? x then v else latest r a end.
Definition logbook : Env (list (Z * Z)) :=
  Mk_env _
    (fun l a => (latest l a, l))
    (fun l a b => (latest l a, l))
    (fun l a v p => (Z.testbit (latest l a) p, l))
    (fun l a b => (b, (a, b) :: l))
    (fun l a v p => (v, (a, if v then Z.setbit (latest l a) p else Z.clearbit (latest l a) p) :: l))
    (fun l e => (None, l))
    (fun l e => l)
    (fun l => (3, l))
    (fun l => (0, l))
    false false false false.

Definition kept (l : list (Z * Z)) (m : Z -> Z) : Prop := forall a, latest l a = m a.

Lemma kept_put : forall l m a b, kept l m -> kept ((a, b) :: l) (put m a b).
Proof. intros l m a b H x. cbn [latest]. unfold put. destruct (x =? a); [reflexivity|apply H]. Qed.

Lemma logbook_agrees : agree logbook toy kept (fun _ => True).
Proof.
  constructor; cbn [logbook toy e_readCv e_readCvByte e_readCvBit e_writeCv e_writeCvBit e_async e_hook e_rand e_now e_async_readable
    e_async_writable e_high_current e_east_west fst snd]; try reflexivity; intros; try (split; [|assumption]); rewrite ?H; try reflexivity;
    try assumption.
  - split; [reflexivity|]. apply kept_put. assumption.
  - split; [reflexivity|]. apply kept_put. assumption.
Qed.

(** ** An application without access to single bits *)

Definition bytewise : Env (Z -> Z) :=
  Mk_env _ (e_readCv toy) (e_readCvByte toy) (fun m a v p => (false, m)) (e_writeCv toy) (fun m a v p => (false, m))
    (e_async toy) (e_hook toy) (e_rand toy) (e_now toy) false false false false.
Definition no_bits (e : event) : Prop := match e with EReadCvBit _ _ _ _ | EWriteCvBit _ _ _ _ => False | _ => True end.

Lemma bytewise_agrees : agree bytewise toy eq no_bits.
Proof.
  constructor; cbn [bytewise toy e_readCv e_readCvByte e_readCvBit e_writeCv e_writeCvBit e_async e_hook e_rand e_now e_async_readable
    e_async_writable e_high_current e_east_west fst snd]; try reflexivity; intros; subst; try (split; reflexivity); try reflexivity;
    match goal with H : no_bits _ |- _ => destruct H end.
Qed.

(** A write of CV3, a bit of CV3 *)
Definition traffic (ps : list (list Z)) : list op :=
  OInit :: flat_map (fun p => map OReceive (half_bits 58 100 (track_bits 17 p) ++ repeat 58 40) ++ [OExecute]) ps.
Definition written : list op := traffic [frame 3 [0xEC; 2; 5]; frame 3 [0xEC; 2; 5]; frame 3 [0x3F; 0x90]].
Definition written_bit : list op := traffic [frame 3 [0xE8; 2; 0xF9]; frame 3 [0xE8; 2; 0xF9]].
