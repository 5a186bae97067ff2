(** Property theorems C66: asynchronous CV access. *)
From Verif Require Import Prelude Address SpecCodec RxState Rx SpecRx SpecExec SpecConf SpecCv SpecAsync Toy AsyncProofs AsyncProofs2 AsyncProofs3 AsyncWitness.

(** * C66 *)

(** The application answers later. Executing a packet requests the accesses and keeps one
    callback for each, in order. Aside from storing logon data nothing is accessed
    otherwise, no answer is queued and nothing is acknowledged, except that register mode
    compares the page register without asking. *)
Theorem C66_request : forall (I : Type) (E : Env I) s p q b s' es, deferring E ->
  reached E s -> ready s p q -> execute E s = Ok (b, s', es) ->
  exists e1 e2, es = e1 ++ e2 /\ storing s e1 /\
    pending s' = pending s ++ map outstanding (accesses e2) /\ Forall (fun e => sync_access e = false) e2 /\
    (answer_queue s' = answer_queue s \/ answer_queue s' = []) /\
    (~ page_verify s p -> acks_of es = 0%nat) /\
    exists c, rereads (e_high_current E) e2 c /\
      match c with Some c => configured c s' | None => configuration s' = configuration s end.
Proof. intros I E s p q b s' es HD. exact (requests E HD s p q b s' es). Qed.
Print Assumptions C66_request.

(** As long as no callback is invoked, whatever else happens, no answer to a CV access is
    queued, and nothing but a comparison with the page register is acknowledged *)
Theorem C66_silent : forall (I : Type) (E : Env I) i os s es, deferring E ->
  run E os (st0 i) = Ok (tt, s, es) -> (forall j v, ~ In (OCallback j v) os) ->
  answer_queue s = [] /\
  (acks_of es <> 0%nat -> exists os1 os2 s1 e1 p q, os = os1 ++ OExecute :: os2 /\ run E os1 (st0 i) = Ok (tt, s1, e1) /\
    ready s1 p q /\ page_verify s1 p).
Proof. intros I E i os s es HD. exact (silent_until E HD i os s es). Qed.
Print Assumptions C66_silent.

(** A callback invoked in any state: in service mode it acknowledges if the value is the
    one the packet had, else it queues the value as the only answer if RailCom is on.
    Nothing else changes, in particular not the configuration. *)
Theorem C66_callback : forall (I : Type) (E : Env I) s i c v, nth_error (pending s) i = Some c ->
  exists s', step E (OCallback i v) s = Ok (false, s', if in_service s && agrees c v then [EServiceAck] else []) /\
    (if negb (in_service s) && railcom_on s then answers s' (arrived c v) else answer_queue s' = answer_queue s) /\
    app s' = (if in_service s && agrees c v then e_hook E (app s) EServiceAck else app s) /\
    set_pom_deque [] (rxs s') = set_pom_deque [] (rxs s) /\ pending s' = pending s.
Proof. intros I. exact callback_effect. Qed.
Print Assumptions C66_callback.

(** Executing a packet that makes one request and does not write the configuration, and
    invoking its callback with [v]: the same calls and state as if the application had
    answered [v] at once *)
Theorem C66_later : forall (I : Type) (E : Env I) v s b s1 e1 c s2 e2, deferring E ->
  execute E s = Ok (b, s1, e1) -> pending s1 = pending s ++ [c] -> existsb is_read e1 = false ->
  step E (OCallback (length (pending s)) v) s1 = Ok (false, s2, e2) ->
  exists s', execute (at_once v E) s = Ok (b, s', e1 ++ e2) /\ without_pending s' = without_pending s2.
Proof. intros I E v s b s1 e1 c s2 e2 HD. exact (answered_later E HD v s b s1 e1 c s2 e2). Qed.
Print Assumptions C66_later.

(** ... and answering at once is the same as synchronous access, through any history *)
Theorem C66_at_once : forall (I : Type) (E : Env I) os s, prompt E ->
  match run E os s with
  | Ok (u, s', es) => exists es', run (synchronous E) os s = Ok (u, s', es') /\ Forall2 same_call es es'
  | UB r => run (synchronous E) os s = UB r
  end.
Proof. intros I E os s HP. exact (rel_run E HP os s). Qed.
Print Assumptions C66_at_once.

(** Configuration is read when the write is requested, and a write made later goes
    unnoticed: CV1 = 9, confirmed by the callback, and still address 3 is obeyed *)
Theorem C66_stale : exists os s es, let p := [3; 0xEC; 0; 9; 0xE6] in
  os = arriving [p; p] ++ [OExecute; OExecute; OCallback 0 9] ++ arriving [[3; 0x3F; 0x90; 0xAC]] ++ [OExecute] /\
  run slow ([OInit; OEnable] ++ os) (st0 (factory, [])) = Ok (tt, s, es) /\
  fst (app s) 0 = 9 /\ aval (primary (r_addrs (rxs s))) = 3 /\ In (ESpeed 3 (speed255 126 15)) es.
Proof.
  eexists. do 2 eexists. cbv zeta. split; [reflexivity|]. split; [vm_compute; reflexivity|]. split; [vm_compute; reflexivity|].
  split; [reflexivity|]. vm_compute. tauto.
Qed.
Print Assumptions C66_stale.

(** Verifying CV29 = 7: a request, no answer until the callback reports 10 *)
Example C66_ex : let p := [3; 0xE4; 28; 7; 0xFC] in let s := fst (slowly (arriving [p])) in
  deferring slow /\ reached slow s /\ ready s p [] /\
  let s1 := fst (slowly (arriving [p] ++ [OExecute])) in
  execute slow s = Ok (true, s1, [EReadCvByteAsync 28 7]) /\ pending s1 = pending s ++ [PendByte 7] /\ answer_queue s1 = [] /\
  step slow (OCallback 0 10) s1 = Ok (false, fst (slowly (arriving [p] ++ [OExecute; OCallback 0 10])), []) /\
  answer_queue (fst (slowly (arriving [p] ++ [OExecute; OCallback 0 10]))) = [[0xAC; 0x93]].
Proof.
  cbv zeta. split; [apply slow_deferring|]. split; [apply slowly_reached; vm_compute; reflexivity|].
  split; [split; vm_compute; reflexivity|]. split; [vm_compute; reflexivity|]. split; [vm_compute; reflexivity|].
  split; [vm_compute; reflexivity|]. split; [vm_compute; reflexivity|]. vm_compute; reflexivity.
Qed.

(** The configuration is read again at the request; [rereads] of this is what was read *)
Example C66_ex_write : let p := [3; 0xEC; 0; 9; 0xE6] in
  let s := fst (slowly (arriving [p; p] ++ [OExecute])) in
  ready s p [] /\ exists s', execute slow s = Ok (true, s', EWriteCvAsync 0 9 :: config_calls factory false) /\
  rereads false (EWriteCvAsync 0 9 :: config_calls factory false) (Some factory).
Proof.
  cbv zeta. split; [split; vm_compute; reflexivity|]. eexists. split; [vm_compute; reflexivity|].
  rewrite <- (app_nil_r (config_calls factory false)). apply (reread_config false (EWriteCvAsync 0 9) factory [] None); [cbn; auto|constructor].
Qed.

(** The page register, service mode: acknowledged without a callback *)
Example C66_ex_page : let ps := [[0; 0; 0]; [0x7D; 8; 0x75]; [0x75; 8; 0x7D]] in
  let os := arriving ps ++ [OExecute; OExecute; OExecute] in
  acks_of (snd (slowly os)) = 1%nat /\ pending (fst (slowly os)) = [] /\
  page_verify (fst (slowly (arriving ps ++ [OExecute; OExecute]))) [0x75; 8; 0x7D].
Proof. cbv zeta. split; [vm_compute; reflexivity|]. split; [vm_compute; reflexivity|]. vm_compute. intuition discriminate. Qed.

(** Prompt answers *)
Example C66_ex_prompt : prompt quick /\ let p := [3; 0xE4; 28; 7; 0xFC] in
  (match run quick ([OInit; OEnable] ++ arriving [p] ++ [OExecute]) (st0 factory) with
   | Ok (_, s, es) => (answer_queue s, last es EServiceAck) | UB _ => ([], EServiceAck) end) = ([[0xAC; 0x93]], EReadCvByteAsync 28 7) /\
  (match run (synchronous quick) ([OInit; OEnable] ++ arriving [p] ++ [OExecute]) (st0 factory) with
   | Ok (_, s, es) => (answer_queue s, last es EServiceAck) | UB _ => ([], EServiceAck) end) = ([[0xAC; 0x93]], EReadCvByte 28 7 10).
Proof. split; [apply quick_prompt|]. cbv zeta. split; vm_compute; reflexivity. Qed.
