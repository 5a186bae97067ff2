(** Ownership of memory by the RMT encoders. *)
From Verif Require Import Prelude SpecRmt Rmt RmtLife.

(** The three blocks of an encoder: itself and two encoders of ESP-IDF *)
Definition owns (d : encoder) (ps : list nat) : Prop :=
  exists copy bytes, e_copy d = Some copy /\ e_bytes d = Some bytes /\ ps = [e_self d; copy; bytes].

(** Nothing is freed twice; the living blocks are those of the encoders held, and all
    of them are different *)
Definition accounted (ds : list encoder) (h : heap) : Prop :=
  h_bad h = false /\
  exists pss, Forall2 owns ds pss /\ NoDup (concat pss) /\
    (forall p, In p (h_live h) <-> In p (concat pss)) /\ NoDup (h_live h).

(** Result of a creation (comment of rmt_new_dcc_encoder): the first reason to fail *)
Definition creation (k : luck) (c : rmt_config) (r : Z) : Prop :=
  (~ (k_config k = true /\ k_ret k = true /\ within_ranges c) /\ r = 0x102) \/
  ((k_config k = true /\ k_ret k = true /\ within_ranges c) /\
   ((k_calloc k = false /\ r = 0x101) \/
    (k_calloc k = true /\ k_copy k <> 0 /\ r = k_copy k) \/
    (k_calloc k = true /\ k_copy k = 0 /\ r = k_bytes k))).
