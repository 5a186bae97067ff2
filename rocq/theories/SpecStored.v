(** What is left in the CVs of an assigned address. *)
From Verif Require Import Prelude Address RxState Rx SpecCv SpecLogon.

(** The byte written last to CV [a] (numbered from 0), none if there is none *)
Definition overwrite (a : Z) (v : option Z) (x : access) : option Z :=
  match x with
  | Store b u => if b =? a then Some u else v
  | StoreBit b _ _ => if b =? a then None else v
  | _ => v
  end.
Definition last_stored (a : Z) (es : list event) : option Z := fold_left (overwrite a) (accesses es) None.

(** The CVs of automatic logon: command station, session, address *)
Definition logon_cvs : list Z := [65296; 65297; 65298; 65299; 65300].

(** They were last written with what the decoder has been told *)
Definition as_told {I : Type} (es : list event) (s : st I) : Prop :=
  let cid := fst (new_station s) in let sid := snd (new_station s) in let n := aval (logon (r_addrs (rxs s))) in
  map (fun a => last_stored a es) logon_cvs =
  [Some (cid / 256 mod 256); Some (cid mod 256); Some sid; Some (n / 256 mod 256); Some (n mod 256)].
