(** Vocabulary for execute() under interrupts. *)
From Verif Require Import Prelude RxState Rx SpecRx Preempt.

(** Result of an execution, the deque as each of its steps found it, and the
    interrupts served meanwhile *)
Definition outcome : Type := bool * list (list (list Z)) * list op.
Definition told (o : outcome) : bool := fst (fst o).
Definition seen (o : outcome) : list (list (list Z)) := snd (fst o).
Definition served (o : outcome) : list op := snd o.

(** The first two steps decide whether there is anything to do; the packet the
    execution works on is the one its third step finds in front *)
Definition worked_on (o : outcome) : option (list Z) :=
  match skipn 2 (seen o) with d :: _ => hd_error d | [] => None end.

(** Every later step finds the same packet in front *)
Definition one_packet (o : outcome) : Prop :=
  forall d, In d (skipn 2 (seen o)) -> exists p, worked_on o = Some p /\ hd_error d = Some p.

(** Interrupts are calls other than execute() itself *)
Definition interrupting (w : list (list op)) : Prop :=
  Forall (Forall (fun o => o <> OExecute)) w.

(** A session: again and again some calls, then an execution that is interrupted *)
Definition session_plan : Type := list (list op * list (list op)).
Fixpoint session {I : Type} (E : Env I) (ts : session_plan) : M (I := I) (list outcome) :=
  match ts with
  | [] => ret []
  | (os, w) :: r =>
      bind (run E os) (fun _ =>
      bind (preempted E (executeP E) w) (fun o =>
      bind (session E r) (fun x => ret (o :: x))))
  end.

(** The listener of SpecRx after such an execution: everything heard meanwhile, and
    the packet worked on is gone from the queue *)
Definition without_first (o : outcome) (l : listener) : listener :=
  match worked_on o with
  | Some _ => Listener (l_heard l) (tl (l_queue l)) (l_fresh l) (l_on l)
  | None => l
  end.
Definition turn (os : list op) (o : outcome) (l : listener) : listener :=
  without_first o (listen_all (served o) (listen_all os l)).

(** Packets queued during a session, in order of their arrival *)
Fixpoint all_heard (ts : session_plan) (outs : list outcome) (l : listener) : list (list Z) :=
  match ts, outs with
  | (os, _) :: ts', o :: outs' =>
      heard os l ++ heard (served o) (listen_all os l) ++ all_heard ts' outs' (turn os o l)
  | _, _ => []
  end.

(** Packets executed during a session, in order of their execution *)
Fixpoint all_executed (ts : session_plan) (outs : list outcome) (l : listener) : list (list Z) :=
  match ts, outs with
  | (os, _) :: ts', o :: outs' =>
      taken os l ++ match worked_on o with Some p => [p] | None => [] end
        ++ all_executed ts' outs' (turn os o l)
  | _, _ => []
  end.

(** The listener after a session *)
Fixpoint all_listened (ts : session_plan) (outs : list outcome) (l : listener) : listener :=
  match ts, outs with
  | (os, _) :: ts', o :: outs' => all_listened ts' outs' (turn os o l)
  | _, _ => l
  end.

(** The interrupt handlers of a decoder *)
Definition handler (o : op) : Prop :=
  match o with OReceive _ | OBiDi1 | OBiDi2 => True | _ => False end.

(** No call completes a logon packet (those are dealt with inside receive()) *)
Fixpoint no_logon (os : list op) (l : listener) : Prop :=
  match os with
  | [] => True
  | o :: r => (forall bs, completed o l = Some bs -> is_logon bs = false) /\ no_logon r (listen o l)
  end.

Definition transmission (e : event) : bool :=
  match e with ETransmitBiDi _ => true | _ => false end.
(** Calls into the application other than transmissions in a cutout *)
Definition commands (es : list event) : list event := filter (fun e => negb (transmission e)) es.

(** The decoder with nothing but packet [p] in its queue and no packet just completed *)
Definition only {I : Type} (p : list Z) (s : st I) : st I :=
  Mk_st (set_f_packet_end false (set_r_deque [p] (rxs s))) (app s) (pending s).

(** The same decoder as far as commands are concerned: everything but the bit
    receiver, the queue, the counters, the address received last and the waiting BiDi
    datagrams *)
Record same_decoder {I : Type} (s s' : st I) : Prop := {
  same_primary : primary (r_addrs (rxs s')) = primary (r_addrs (rxs s));
  same_consist : consist (r_addrs (rxs s')) = consist (r_addrs (rxs s));
  same_logon : logon (r_addrs (rxs s')) = logon (r_addrs (rxs s));
  same_conf : r_conf (rxs s') = r_conf (rxs s);
  same_cv : r_cv (rxs s') = r_cv (rxs s);
  same_time : r_time (rxs s') = r_time (rxs s);
  same_selected : logon_selected (r_logon (rxs s')) = logon_selected (r_logon (rxs s));
  same_assigned : logon_assigned (r_logon (rxs s')) = logon_assigned (r_logon (rxs s));
  same_store : logon_store (r_logon (rxs s')) = logon_store (r_logon (rxs s));
  same_cids : cid_front (r_logon (rxs s')) = cid_front (r_logon (rxs s)) /\
              cid_back (r_logon (rxs s')) = cid_back (r_logon (rxs s));
  same_sids : sid_front (r_logon (rxs s')) = sid_front (r_logon (rxs s)) /\
              sid_back (r_logon (rxs s')) = sid_back (r_logon (rxs s));
  same_backoff : logon_backoff (r_logon (rxs s')) = logon_backoff (r_logon (rxs s));
  same_app : app s' = app s;
  same_pending : pending s' = pending s }.
