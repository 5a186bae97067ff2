(** enable() and disable() as sequences of small steps between which interrupts may run
    (include/dcc/rx/crtp_base.hpp), in the language of Preempt.v.

    Both are called in thread mode, while receive() works on the same members in an
    interrupt. The stores are taken in the order of the source; a compiler may reorder them,
    for the members are neither volatile nor atomic. *)
From Verif Require Import Prelude RxState Rx Preempt.

Section Off.
  Context {I : Type}.
  Notation prog := (@prog I).

  Local Notation "x <- m ;; k" := (pbind m (fun x => k))
    (at level 61, m at next level, right associativity).
  Local Notation "m ;;; k" := (pbind m (fun _ => k)) (at level 61, right associativity).

  (** reset, rx/crtp_base.hpp:870-873. The chain _bit_count = _byte = _checksum = 0u assigns
      from right to left. *)
  Definition resetP : prog unit :=
    wr (set_f_checksum 0) ;;;
    wr (set_f_byte 0) ;;;
    wr (set_f_bit_count 0) ;;;
    wr (set_f_state Preamble).

  (** enable, rx/crtp_base.hpp:105-108 *)
  Definition enableP : prog unit :=
    e <- rd (fun r => enabled_flag (r_cv r)) ;;
    if e : bool then Done tt else wr (set_enabled_flag true).

  (** disable, rx/crtp_base.hpp:111-115 *)
  Definition disableP : prog unit :=
    e <- rd (fun r => enabled_flag (r_cv r)) ;;
    if negb e then Done tt else wr (set_enabled_flag false) ;;; resetP.
End Off.
