(** Asynchronous applications in an interrupted main loop, for the examples *)
From Verif Require Import Prelude Address SpecCodec RxState Rx SpecRx SpecConf SpecLayout Toy CvWitness LayoutWitness LogonWitness SpecAsync AsyncWitness.

(** The prompt application [quick] of AsyncWitness, used synchronously, keeps CVs *)
Lemma quick_keeps : keeps_cvs all_cvs (synchronous quick) (fun c a => u8 (c a)).
Proof. destruct toy_keeps as (TM & TW & TB). split; [destruct TM; constructor; assumption|]. split; assumption. Qed.

(** One that takes its time *)
Definition tardy : Env (Z -> Z) := with_async true true (fun m _ => (None, m)) toy.
