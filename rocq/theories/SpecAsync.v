(** Applications that answer CV accesses later *)
From Verif Require Import Prelude RxState Rx SpecRx SpecExec SpecConf SpecCv.

Section Async.
  Context {I : Type}.
  Implicit Types s : st I.

  (** An application that never answers before it has returned from the request *)
  Definition deferring (E : Env I) : Prop :=
    e_async_readable E = true /\ e_async_writable E = true /\ forall i e, fst (e_async E i e) = None.

  (** One that always answers at once, the same as by its synchronous functions *)
  Definition prompt (E : Env I) : Prop :=
    (forall i a b, e_async E i (EReadCvByteAsync a b) = (Some (fst (e_readCvByte E i a b)), snd (e_readCvByte E i a b))) /\
    (forall i a b k, e_async E i (EReadCvBitAsync a b k) = (Some (Z.b2z (fst (e_readCvBit E i a b k))), snd (e_readCvBit E i a b k))) /\
    (forall i a b, e_async E i (EWriteCvAsync a b) = (Some (fst (e_writeCv E i a b)), snd (e_writeCv E i a b))) /\
    (forall i a b k, e_async E i (EWriteCvBitAsync a b k) = (Some (Z.b2z (fst (e_writeCvBit E i a b k))), snd (e_writeCvBit E i a b k))).

  (** The application [E] with other flags and another way to answer *)
  Definition with_async (rd wr : bool) (f : I -> event -> option Z * I) (E : Env I) : Env I :=
    Mk_env I (e_readCv E) (e_readCvByte E) (e_readCvBit E) (e_writeCv E) (e_writeCvBit E) f (e_hook E) (e_rand E) (e_now E)
      rd wr (e_high_current E) (e_east_west E).
  (** ... used synchronously *)
  Definition synchronous (E : Env I) : Env I := with_async false false (e_async E) E.
  (** ... answering [v] to everything, at once *)
  Definition at_once (v : Z) (E : Env I) : Env I :=
    with_async true true (fun i e => (Some v, snd (e_async E i e))) E.

  Definition without_pending s : rx * I := (rxs s, app s).
  Definition page_verify s (p : list Z) : Prop :=
    in_service s = true /\ 0x70 <= hd 0 p < 0x80 /\ length p = 3%nat /\ hd 0 p mod 16 = 5.
End Async.

(** The same call into the application, asynchronous or not *)
Inductive same_call : event -> event -> Prop :=
| same_e : forall e, same_call e e
| same_rd : forall a b r, same_call (EReadCvByteAsync a b) (EReadCvByte a b r)
| same_rdb : forall a b k r, same_call (EReadCvBitAsync a b k) (EReadCvBit a b k r)
| same_wr : forall a b r, same_call (EWriteCvAsync a b) (EWriteCv a b r)
| same_wrb : forall a b k r, same_call (EWriteCvBitAsync a b k) (EWriteCvBit a b k r).

(** What is kept until the answer comes *)
Definition outstanding (x : access) : pend :=
  match x with Check _ v | Store _ v => PendByte v | CheckBit _ b _ | StoreBit _ b _ => PendBit b end.

(** Synchronous accesses *)
Definition sync_access (e : event) : bool :=
  match e with EReadCvByte _ _ _ | EReadCvBit _ _ _ _ | EWriteCv _ _ _ | EWriteCvBit _ _ _ _ => true | _ => false end.

(** The requested value as it arrives *)
Definition agrees (c : pend) (v : Z) : bool :=
  match c with PendByte b => b =? v mod 256 | PendBit b => Bool.eqb b (negb (v =? 0)) end.
Definition arrived (c : pend) (v : Z) : Z :=
  match c with PendByte _ => v mod 256 | PendBit _ => Z.b2z (negb (v =? 0)) end.

Definition is_read (e : event) : bool := match e with EReadCv _ _ => true | _ => false end.
(** A request to write one of the CVs of the configuration *)
Definition asks_config (e : event) : Prop :=
  match e with
  | EWriteCvAsync a _ | EWriteCvBitAsync a _ _ => In (a + 1) [1; 15; 16; 17; 18; 19; 20; 28; 29]
  | _ => False
  end.

(** Calls in which each request to write the configuration is directly followed by reading
    all of it, and nothing else is. [c] is what was read last. *)
Inductive rereads (hc : bool) : list event -> option (Z -> Z) -> Prop :=
| reread_end : rereads hc [] None
| reread_config : forall e c es d, asks_config e -> rereads hc es d ->
    rereads hc (e :: config_calls c hc ++ es) (match d with Some d => Some d | None => Some c end)
| reread_other : forall e es d, ~ asks_config e -> is_read e = false -> rereads hc es d -> rereads hc (e :: es) d.
