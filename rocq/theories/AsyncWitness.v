(** Asynchronous applications for the examples *)
From Verif Require Import Prelude Address SpecCodec RxState Rx RxLogic RxInv SpecRx SpecExec SpecConf SpecCv CvProofs2 Toy SpecAsync AsyncProofs2.

(** A CV memory that answers later. Writes wait and are made when the clock is read next. *)
Definition slow : Env ((Z -> Z) * list (Z * Z)) :=
  Mk_env _
    (fun i a => (fst i a, i))
    (fun i a b => (fst i a, i))
    (fun i a v p => (Z.testbit (fst i a) p, i))
    (fun i a b => (b, (put (fst i) a b, snd i)))
    (fun i a v p => (v, i))
    (fun i e => (None, match e with EWriteCvAsync a b => (fst i, snd i ++ [(a, b)]) | _ => i end))
    (fun i e => i)
    (fun i => (3, i))
    (fun i => (0, (fold_left (fun m x => put m (fst x) (snd x)) (snd i) (fst i), [])))
    true true false false.
Lemma slow_deferring : deferring slow.
Proof. repeat split. Qed.

(** The toy application, asked asynchronously, answering at once *)
Definition quick : Env (Z -> Z) :=
  with_async true true (fun m e => match e with
    | EReadCvByteAsync a b => (Some (m a), m)
    | EReadCvBitAsync a v p => (Some (Z.b2z (Z.testbit (m a) p)), m)
    | EWriteCvAsync a b => (Some b, put m a b)
    | EWriteCvBitAsync a v p => (Some (Z.b2z v), put m a (if v then Z.setbit (m a) p else Z.clearbit (m a) p))
    | _ => (None, m)
    end) toy.
Lemma quick_prompt : prompt quick.
Proof. repeat split. Qed.

(** Packets as they arrive *)
Definition arriving (ps : list (list Z)) : list op :=
  flat_map (fun p => map OReceive (half_bits 58 100 (track_bits 14 p))) ps ++ [OReceive 58].
Definition slowly (os : list op) : st ((Z -> Z) * list (Z * Z)) * list event :=
  match run slow ([OInit; OEnable] ++ os) (st0 (factory, [])) with Ok (_, s, es) => (s, es) | UB _ => (st0 (factory, []), []) end.
Lemma slowly_reached : forall os, (match run slow ([OInit; OEnable] ++ os) (st0 (factory, [])) with Ok _ => true | UB _ => false end) = true ->
  reached slow (fst (slowly os)).
Proof.
  intros os H. unfold slowly. destruct (run slow ([OInit; OEnable] ++ os) (st0 (factory, []))) as [[[[] s] es]|] eqn:E; [|discriminate H].
  exists (factory, []), ([OInit; OEnable] ++ os), es. exact E.
Qed.
