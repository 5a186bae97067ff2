(** Backoff logic (include/dcc/rx/backoff.hpp). *)
From Verif Require Import Prelude.

(** struct Backoff, rx/backoff.hpp:44-45 *)
Record backoff := Mk_backoff { bo_range : Z; bo_count : Z }.
Definition backoff0 : backoff := Mk_backoff 0 0.

(** operator bool, rx/backoff.hpp:22-31, with [rnd] the value rand() returns when
    called. Returns the result and the new state. randomCount (40-42) uses the old
    range; the cast to uint8_t is explicit. *)
Definition backoff_test (b : backoff) (rnd : Z) : bool * backoff :=
  if bo_count b =? 0 then
    (false, Mk_backoff (Z.min (bo_range b + 1) 3)
                       (u8 (rnd mod (Z.shiftl 8 (bo_range b)))))
  else (true, Mk_backoff (bo_range b) (bo_count b - 1)).

(** now, rx/backoff.hpp:34-37 *)
Definition backoff_now (b : backoff) : backoff := Mk_backoff 0 0.
