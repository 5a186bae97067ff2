(** Common vocabulary of the model: outcomes, fixed width casts, sweeps. *)
From Coq Require Export ZArith List Bool Lia.
Export ListNotations.
Global Open Scope Z_scope.

(** Ways in which the source leaves defined behaviour.
    - [OutOfBounds]: span, packet, iterator or array access out of range
    - [PacketFull]: inplace_vector grows beyond its capacity (packet.hpp:18)
    - [DequeFull]: inplace_deque push_back at capacity (rx/crtp_base.hpp:1200-1206)
    - [AssertFailed]: a failing assert() *)
Inductive ub := OutOfBounds | PacketFull | DequeFull | AssertFailed.

(** Outcome of a C++ expression: a value or undefined behaviour.
    Models no single line; every modelled function returns one where the source
    has a precondition. *)
Inductive res (A : Type) :=
| Ok (a : A)
| UB (r : ub).
Arguments Ok {A} a.
Arguments UB {A} r.

Definition rbind {A B} (m : res A) (k : A -> res B) : res B :=
  match m with Ok a => k a | UB r => UB r end.

(** static_cast<uintN_t>(x) (e.g. utility.hpp:31, rx/crtp_base.hpp:148) *)
Definition u8 (x : Z) : Z := x mod 256.
Definition u16 (x : Z) : Z := x mod 65536.
Definition u32 (x : Z) : Z := x mod 4294967296.
Definition u64 (x : Z) : Z := x mod 18446744073709551616.

(** static_cast<int16_t>(x) (bidi/dyn.hpp:19, rx/crtp_base.hpp:1049) *)
Definition i16 (x : Z) : Z := (x + 32768) mod 65536 - 32768.

(** Value range of uint8_t. *)
Definition byte (b : Z) : Prop := 0 <= b < 256.

(** Range [lo, lo+n) as a list; used for exhaustive checks of finite domains. *)
Fixpoint zseq (lo : Z) (n : nat) : list Z :=
  match n with
  | O => []
  | S m => lo :: zseq (lo + 1) m
  end.

Lemma zseq_In : forall n lo x, lo <= x < lo + Z.of_nat n -> In x (zseq lo n).
Proof.
  induction n as [|n IH]; intros lo x H; cbn [zseq]; [lia|].
  destruct (Z.eq_dec lo x) as [->|Hne]; [left; reflexivity|right].
  apply IH. lia.
Qed.

Lemma sweep : forall (P : Z -> bool) lo n,
    forallb P (zseq lo n) = true ->
    forall x, lo <= x < lo + Z.of_nat n -> P x = true.
Proof.
  intros P lo n H x Hx. rewrite forallb_forall in H. apply H.
  apply zseq_In; assumption.
Qed.

Lemma sweep8 : forall (P : Z -> bool),
    forallb P (zseq 0 256) = true -> forall b, byte b -> P b = true.
Proof. intros P H b Hb. apply (sweep P 0 256 H). exact Hb. Qed.

Lemma Ok_inj : forall A (a b : A), Ok a = Ok b -> a = b.
Proof. intros A a b H. injection H. trivial. Qed.
