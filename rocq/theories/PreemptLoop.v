(** The calls of a decoder's main loop as sequences of small steps between which
    interrupts may run (include/dcc/rx/crtp_base.hpp), in the language of Preempt.v.

    receive() (rx/crtp_base.hpp:120-175, with executeHandlerMode, 260-269) and the cutout
    handlers biDiChannel1() and biDiChannel2() (225-253) run from interrupts. execute(),
    init(), datagram() and the callbacks of an asynchronous application run in the main
    loop (thread mode), one after the other, and may be interrupted by those. *)
From Verif Require Import Prelude RxState Rx Preempt PreemptData.

Section Loop.
  Context {I : Type} (E : Env I).
  Notation prog := (@prog I).

  Local Notation "x <- m ;; k" := (pbind m (fun x => k))
    (at level 61, m at next level, right associativity).
  Local Notation "m ;;; k" := (pbind m (fun _ => k)) (at level 61, right associativity).

  (** The application calls back the [i]-th function it was given by an asynchronous
      readCv or writeCv (rx/crtp_base.hpp:731-735, 745-749, 778-782, 792-796) with value
      [v]. Finding the function is the application's business and one step. *)
  Definition callbackP (i : nat) (v : Z) : prog unit :=
    c <- act (fun s => Ok (nth_error (pending s) i, s, [])) ;;
    match c with
    | Some c => run_cbP E c v
    | None => Done tt
    end.

  (** execute() (rx/crtp_base.hpp:181, 274-283), init() (52-102), datagram() (210-222) or a
      callback *)
  Inductive task : Type := TExecute | TInit | TDatagram (ds : list dyn_arg) | TCallback (i : nat) (v : Z).
  Definition taskP (t : task) : prog bool :=
    match t with
    | TExecute => executeP E
    | TInit => initP E ;;; Done false
    | TDatagram ds => datagramP ds ;;; Done false
    | TCallback i v => callbackP i v ;;; Done false
    end.
End Loop.
