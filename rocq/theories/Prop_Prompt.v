(** Property theorems C128: asynchronous applications in a main loop that is interrupted all the time. *)
From Verif Require Import Prelude Address SpecCodec RxState Rx SpecRx SpecExec SpecConf SpecCv SpecLayout Toy CvWitness LayoutWitness LogonWitness SpecAsync AsyncWitness
  Preempt SpecPreempt PreemptWitness TornWitness PreemptLoop SpecLoop LoopWitness SpecWhole StoredProofs4 WholeWitness PromptProofs PromptWitness.

(** * C128 *)

(** An application that answers asynchronous requests at once, as its synchronous functions
    would: any main loop of the decoder, interrupted wherever and by whatever, has the same
    outcome, undefined behaviour included, the same state and the same calls into the
    application as if it had been asked synchronously. *)
Theorem C128_same : forall (I : Type) (E : Env I), prompt E -> forall ts (s : st I),
  match mainloop E ts s with
  | Ok (outs, s', es) => exists es', mainloop (synchronous E) ts s = Ok (outs, s', es') /\ Forall2 same_call es es'
  | UB r => mainloop (synchronous E) ts s = UB r
  end.
Proof. exact @prompt_loop. Qed.
Print Assumptions C128_same.

(** A decoder with such an application, interrupted in every call of its main loop, is the
    interpreter [obey_all] of the packets executed *)
Theorem C128_interpreter : forall (I : Type) (E : Env I) (m : I -> Z -> Z) able, prompt E -> keeps_cvs able (synchronous E) m ->
  (forall a d, e_hook E a (ETransmitBiDi d) = a) ->
  forall before w ts i outs s es, Forall starting before -> Forall (Forall handler) w -> Forall (fun t => Forall (Forall handler) (snd t)) ts ->
  mainloop E ((before, TInit, w) :: ts) (st0 i) = Ok (outs, s, es) -> loop_unassigned ((before, TInit, w) :: ts) outs listener0 ->
  let ps := loop_executed ((before, TInit, w) :: ts) outs listener0 in let x := obey_all (e_east_west E) ps (new_view (m i)) in
  Forall (allowed able) (snd x) ->
  seen_in es = snd x /\ (forall a, m (app s) a = v_cvs (fst x) a) /\ in_service s = v_service (fst x) /\ page s = v_page (fst x) /\
  loop_heard ((before, TInit, w) :: ts) outs listener0 = ps ++ r_deque (rxs s).
Proof. exact @prompt_layout. Qed.
Print Assumptions C128_interpreter.

(** The main loop of C123_ex: the consist address is written by an asynchronous request, while
    the next packet comes in *)
Example C128_ex : exists outs s es,
  let x := obey_all false [join; join; ride; ride] (new_view (fun a => u8 (factory a))) in
  prompt quick /\ e_async_writable quick = true /\ keeps_cvs all_cvs (synchronous quick) (fun c a => u8 (c a)) /\
  (forall a d, e_hook quick a (ETransmitBiDi d) = a) /\
  Forall starting [OEnable] /\ Forall (fun t => Forall (Forall handler) (snd t)) busy_loop /\
  mainloop quick busy_loop (st0 factory) = Ok (outs, s, es) /\ loop_unassigned busy_loop outs listener0 /\
  map (fun o => length (served o)) outs = [123; 105; 105; 105; 1; 1; 1]%nat /\
  filter (fun e => match e with EWriteCvAsync _ _ => true | _ => false end) es = [EWriteCvAsync 18 5] /\
  loop_executed busy_loop outs listener0 = [join; join; ride; ride] /\ r_deque (rxs s) = [ride] /\
  snd x = [Access (Store 18 5); Told (EDirection 5 true); Told (ESpeed 5 30); Told (EDirection 5 true); Told (ESpeed 5 30)] /\ Forall (allowed all_cvs) (snd x).
Proof.
  do 3 eexists. cbv zeta. split; [exact quick_prompt|]. split; [reflexivity|]. split; [exact quick_keeps|]. split; [intros; reflexivity|].
  split; [repeat constructor|]. split; [apply loop_planned_ok; vm_compute; reflexivity|]. split; [vm_compute; reflexivity|].
  split; [apply loop_unassignedb_ok; vm_compute; reflexivity|]. split; [vm_compute; reflexivity|]. split; [vm_compute; reflexivity|]. split; [vm_compute; reflexivity|].
  split; [vm_compute; reflexivity|].
  match goal with |- ?a = ?b /\ _ => assert (H : a = b) by (vm_compute; reflexivity) end.
  split; [exact H|]. rewrite H. repeat (apply Forall_cons; [unfold all_cvs; cbn; try exact Logic.I; lia|]). apply Forall_nil.
Qed.

(** An application that does not answer at once leaves the decoder out of the consist *)
Example C128_needed : exists outs s es outs' s' es',
  ~ prompt tardy /\ mainloop tardy busy_loop (st0 factory) = Ok (outs, s, es) /\
  mainloop (synchronous tardy) busy_loop (st0 factory) = Ok (outs', s', es') /\
  aval (consist (r_addrs (rxs s))) = 0 /\ aval (consist (r_addrs (rxs s'))) = 5.
Proof.
  do 6 eexists. split; [intros (H & _); specialize (H factory 0 0); discriminate H|].
  split; [vm_compute; reflexivity|]. split; [vm_compute; reflexivity|]. split; vm_compute; reflexivity.
Qed.
