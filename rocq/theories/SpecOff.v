(** Vocabulary for disable() while packets come in. *)
From Verif Require Import Prelude RxState Rx SpecRx SpecPreempt.

Definition is_receive (o : op) : bool := match o with OReceive _ => true | _ => false end.

(** The next half bit would be the second half of a bit of a packet, the one that is looked at *)
Definition within_bit (h : list bool) : bool :=
  match after_ones h with
  | _ :: _ :: body => Nat.odd (length body)
  | _ => false
  end.

(** disable() of an enabled decoder takes six steps: it looks at the flag, clears it, and
    clears the four members of the bit receiver one after the other. The interrupts before the
    first of these four and those before the other three *)
Definition before_stores (w : list (list op)) : list op := nth 0 w [] ++ nth 1 w [] ++ nth 2 w [].
Definition between_stores (w : list (list op)) : list op := nth 3 w [] ++ nth 4 w [] ++ nth 5 w [].

(** Between the stores nothing is received, or one duration that is no half bit or not the
    second half of a bit of a packet *)
Definition harmless (l : listener) (w : list (list op)) : Prop :=
  match filter is_receive (between_stores w) with
  | [] => True
  | [OReceive t] => half_bit t = None \/ within_bit (l_heard (listen_all (before_stores w) l)) = false
  | _ => False
  end.
