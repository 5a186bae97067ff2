(** A decoder application for the examples: a CV memory, a clock that stands still,
    synchronous CV access *)
From Verif Require Import Prelude SpecCodec RxState Rx SpecRx SpecConf.

Definition put (m : Z -> Z) (a b : Z) : Z -> Z := fun x => if x =? a then b else m x.

Definition toy : Env (Z -> Z) :=
  Mk_env _
    (fun m a => (m a, m))
    (fun m a b => (m a, m))
    (fun m a v p => (Z.testbit (m a) p, m))
    (fun m a b => (b, put m a b))
    (fun m a v p => (v, put m a (if v then Z.setbit (m a) p else Z.clearbit (m a) p)))
    (fun m e => (None, m))
    (fun m e => m)
    (fun m => (3, m))
    (fun m => (0, m))
    false false false false.

(** CVs after a reset: short address 3, 28 speed steps, RailCom on *)
Definition factory : Z -> Z := fun a =>
  if a =? 0 then 3 else if a =? 27 then 3 else if a =? 28 then 10 else 0.

(** The same application after init, having heard the packets [ps] on the track *)
Definition fed (cvs : Z -> Z) (ps : list (list Z)) : st (Z -> Z) :=
  match run toy ([OInit; OEnable] ++
                 flat_map (fun p => map OReceive (half_bits 58 100 (track_bits 14 p))) ps ++ [OReceive 58])
            (st0 cvs) with
  | Ok (_, s, _) => s
  | UB _ => st0 cvs
  end.

(** What the next execution returns and calls *)
Definition shows (s : st (Z -> Z)) : option (bool * list event) :=
  match execute toy s with Ok (b, _, es) => Some (b, es) | UB _ => None end.

(** It is a CV memory *)
Lemma toy_memory : cv_memory toy (fun m a => u8 (m a)).
Proof.
  assert (Hbit : forall x p, 0 <= p < 8 -> bit_of (u8 x) p = Z.testbit x p).
  { intros x p Hp. unfold bit_of, u8. rewrite <- Z.shiftr_div_pow2, <- Z.testbit_odd by lia.
    change 256 with (2 ^ 8). apply Z.mod_pow2_bits_low. lia. }
  constructor; cbn [toy e_readCv e_readCvByte e_readCvBit e_writeCv e_writeCvBit e_hook e_rand e_now fst snd];
    try (intros; split; reflexivity); try reflexivity.
  - intros i a. unfold byte, u8. apply Z.mod_pos_bound. reflexivity.
  - intros i a b k Hk. split; [symmetry; apply Hbit; exact Hk|reflexivity].
  - intros i a b. unfold put. rewrite Z.eqb_refl. split; [reflexivity|].
    intros x Hx. rewrite (proj2 (Z.eqb_neq _ _) Hx). reflexivity.
  - intros i a b k Hk. unfold put. rewrite Z.eqb_refl. split.
    + rewrite Hbit by exact Hk. destruct b; [rewrite Z.setbit_eq by lia|rewrite Z.clearbit_eq by lia]; reflexivity.
    + intros x Hx. rewrite (proj2 (Z.eqb_neq _ _) Hx). reflexivity.
Qed.

(** State and calls after executing everything in the queue of [s] *)
Fixpoint drained (n : nat) (s : st (Z -> Z)) : st (Z -> Z) * list event :=
  match n with
  | O => (s, [])
  | S k => match execute toy s with
           | Ok (_, s1, e1) => let '(s2, e2) := drained k s1 in (s2, e1 ++ e2)
           | UB _ => (s, [])
           end
  end.

(** CV1 = 200 *)
Lemma init_undefined : exists (m : Z -> Z), (forall a, byte (m a)) /\ init toy (st0 m) = UB OutOfBounds.
Proof.
  exists (put factory 0 200). split; [|vm_compute; reflexivity].
  intros a. unfold put, factory, byte. repeat match goal with |- context [if ?b then _ else _] => destruct b end; lia.
Qed.
