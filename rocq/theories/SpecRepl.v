(** What a user of the example examples/repl is told to expect. Uses only the commands and
    steps of Repl.v and the meaning of orders of SpecLayout2.v. *)
From Verif Require Import Prelude Address SpecCodec RxState Rx SpecExec SpecConf SpecCv SpecLayout SpecLayout2 Repl.

(** Arguments as documented by the menu *)
Definition documented (c : repl_cmd) : Prop :=
  match c with
  | RAddress a => 0 <= a <= 16383
  | RSpeed _ speed => 0 <= speed <= 127
  | RF4_F0 state | RF8_F5 state => 0 <= state <= 31
  | RReadByte cv => 0 <= cv <= 1023
  | RWriteByte cv b => 0 <= cv <= 1023 /\ 0 <= b <= 255
  | RReadBit cv _ pos | RWriteBit cv _ pos => 0 <= cv <= 1023 /\ 0 <= pos <= 7
  end.
Definition short_address (c : repl_cmd) : Prop := match c with RAddress a => a <= 127 | _ => True end.

(** The order a command gives to locomotive [n]. Of the five bits of F8-F5 four are used. *)
Definition meant (c : repl_cmd) (n : Z) : list order :=
  match c with
  | RAddress _ => []
  | RSpeed dir speed => [(n, CSpeed126 (128 * Z.b2z dir + speed))]
  | RF4_F0 state => [(n, CF4_F0 state)]
  | RF8_F5 state => [(n, CF8_F5 (state mod 16))]
  | RReadByte cv => [(n, CVerify cv 0)]
  | RWriteByte cv b => [(n, CWrite cv b)]
  | RReadBit cv bit pos => [(n, CVerifyBit cv bit pos)]
  | RWriteBit cv bit pos => [(n, CWriteBit cv bit pos)]
  end.

(** All orders of a session in which locomotive [n] is chosen at first *)
Fixpoint orders_typed (n : Z) (os : list rstep) : list order :=
  match os with
  | [] => []
  | RType c :: r => meant c n ++ orders_typed (match c with RAddress a => a | _ => n end) r
  | _ :: r => orders_typed n r
  end.

Definition every_command (P : repl_cmd -> Prop) (os : list rstep) : Prop := forall c, In (RType c) os -> P c.

(** The array _cvs as the decoder library can read it *)
Definition cvs_of (m : Z -> Z) : Z -> Z := fun a => if (0 <=? a) && (a <? 1024) then u8 (m a) else 0.
(** ... at some point of a session *)
Definition cvs_in (p : repl) : Z -> Z := cvs_of (match p_decoder p with Some s => app s | None => repl_cvs end).

(** The decoder never has 31 packets to execute *)
Definition keeps_up (os : list rstep) : Prop := forall os1 os2 p out s, os = os1 ++ os2 ->
  repl_run os1 repl0 = Done (p, out) -> p_decoder p = Some s -> (length (r_deque (rxs s)) < 31)%nat.

(** [merged a b l]: [l] consists of the elements of [a] and of [b], both in order *)
Inductive merged {A : Type} : list A -> list A -> list A -> Prop :=
| merged_nil : merged [] [] []
| merged_left : forall x a b l, merged a b l -> merged (x :: a) b (x :: l)
| merged_right : forall x a b l, merged a b l -> merged a (x :: b) (x :: l).

(** CV1 stays a number up to 127 *)
Definition leaves_cv1 (c : repl_cmd) : Prop :=
  match c with
  | RWriteByte cv b => cv = 0 -> b <= 127
  | RWriteBit cv _ pos => cv = 0 -> pos <= 6
  | _ => True
  end.

(** The decoder task is ready before the command station task makes its first interval *)
Definition ready_first (os : list rstep) : Prop := forall a b, os = a ++ RLoop :: b -> In RStart a.

(** The decoder task gets to run among any 76 intervals in a row *)
Definition is_loop (o : rstep) : bool := match o with RLoop => true | _ => false end.
Definition loops (os : list rstep) : nat := length (filter is_loop os).
Definition attentive (os : list rstep) : Prop := forall a b c, os = a ++ b ++ c -> (76 <= loops b)%nat -> In RExecute b.

(** The user waits: 785 intervals (about 60 ms) or more before the next command, twice that
    behind the last one *)
Definition sends (c : repl_cmd) : bool := match c with RAddress _ => false | _ => true end.
Definition unhurried (os : list rstep) : Prop :=
  (forall a c1 b c2 d, os = a ++ RType c1 :: b ++ RType c2 :: d -> sends c1 = true -> sends c2 = true -> (785 <= loops b)%nat) /\
  (forall a c b, os = a ++ RType c :: b -> sends c = true -> (1567 <= loops b)%nat).

(** The class Decoder has 1024 CVs. Only reading a byte checks the index. *)
Definition inside (e : event) : Prop :=
  match e with
  | EWriteCv a _ _ | EReadCvBit a _ _ _ | EWriteCvBit a _ _ _ => 0 <= a < 1024
  | _ => True
  end.

(** CV1, CV8 and CV29 as the decoder is shipped; all others are 0 *)
Definition shipped : Z -> Z := fun a =>
  match find (fun x => fst x =? a + 1) [(1, 3); (8, 145); (29, 2)] with Some (_, v) => v | None => 0 end.
