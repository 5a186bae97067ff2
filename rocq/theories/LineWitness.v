(** Concrete calls of decoders that serve the cutouts behind packets *)
From Verif Require Import Prelude Address SpecCodec RxState Rx SpecRx SpecExec SpecConf SpecCv SpecLogon SpecBidi SpecLayout SpecNode SpecStation SpecLine.

(** Both channels behind a completed packet, execute() a duration later *)
Fixpoint serving (ts : list Z) (l : listener) (due : bool) : list op :=
  match ts with
  | [] => []
  | t :: r =>
      OReceive t ::
      (if completed (OReceive t) l then [OBiDi1; OBiDi2] else []) ++
      (if due then [OExecute] else []) ++
      serving r (listen_all ((if completed (OReceive t) l then [OBiDi1; OBiDi2] else []) ++ (if due then [OExecute] else [])) (listen (OReceive t) l))
        (if completed (OReceive t) l then true else false)
  end.
Definition attended (ts : list Z) : list op := serving ts listener0 false.

Lemma serving_receives : forall ts l d, filter is_receive (serving ts l d) = map OReceive ts.
Proof.
  induction ts as [|t ts IH]; intros l d; [reflexivity|]. cbn [serving filter is_receive map]. f_equal.
  destruct (completed (OReceive t) l), d; cbn [List.app filter is_receive]; apply IH.
Qed.
Lemma serving_ops : forall ts l d o, In o (serving ts l d) -> (exists t, o = OReceive t) \/ o = OBiDi1 \/ o = OBiDi2 \/ o = OExecute.
Proof.
  induction ts as [|t ts IH]; intros l d o H; [destruct H|]. cbn [serving In] in H. destruct H as [<-|H]; [left; exists t; reflexivity|].
  rewrite !in_app_iff in H. destruct H as [H|[H|H]].
  - destruct (completed (OReceive t) l); [|destruct H]. destruct H as [<-|[<-|[]]]; auto.
  - destruct d; [|destruct H]. destruct H as [<-|[]]; auto.
  - exact (IH _ _ _ H).
Qed.

Fixpoint roomy (os : list op) (l : listener) : bool :=
  (length (l_queue l) <? 31)%nat && match os with [] => true | o :: r => roomy r (listen o l) end.
Lemma roomy_spec : forall os l, roomy os l = true -> never_full os l.
Proof.
  induction os as [|o os IH]; intros l H os1 os2 He; cbn [roomy] in H; apply andb_prop in H; destruct H as [H1 H2]; apply Nat.ltb_lt in H1.
  - destruct os1; [exact H1|discriminate].
  - destruct os1 as [|o' os1]; [exact H1|]. injection He as <- He. exact (IH _ H2 os1 os2 He).
Qed.

Fixpoint timely (os : list op) (l : listener) : bool :=
  match os with
  | [] => true
  | o :: r => match o with OBiDi2 => l_fresh l | ODatagram _ => false | _ => true end && timely r (listen o l)
  end.
Lemma timely_spec : forall os, timely os listener0 = true -> on_time os.
Proof.
  assert (G : forall os l, timely os l = true -> forall os1 o os2, os = os1 ++ o :: os2 ->
    match o with OBiDi2 => l_fresh (listen_all os1 l) = true | ODatagram ds => Forall in_range ds | _ => True end).
  { induction os as [|a os IH]; intros l H os1 o os2 He; [destruct os1; discriminate|]. cbn [timely] in H. apply andb_prop in H. destruct H as [H1 H2].
    destruct os1 as [|a' os1]; injection He as <- He.
    - destruct a; try exact Logic.I; [discriminate|exact H1].
    - exact (IH _ H2 os1 o os2 He). }
  intros os H os1 o os2. apply G. exact H.
Qed.

Fixpoint soon (os : list op) : bool :=
  match os with
  | OBiDi2 :: _ | [] => true
  | OReceive _ :: _ => false
  | _ :: r => soon r
  end.
Lemma soon_spec : forall b t c, soon (b ++ OReceive t :: c) = true -> exists x y, b = x ++ OBiDi2 :: y /\ existsb is_receive x = false.
Proof.
  induction b as [|o b IH]; intros t c H; [discriminate|]. cbn [List.app soon] in H.
  destruct o; try discriminate H; try (destruct (IH t c H) as (x & y & -> & K); eexists (_ :: x), y; split; [reflexivity|exact K]).
  exists [], b. auto.
Qed.
Fixpoint fetching (os : list op) (l : listener) : bool :=
  match os with
  | [] => true
  | o :: r => match completed o l with Some p => if is_logon p then soon r else true | None => true end && fetching r (listen o l)
  end.
Lemma fetching_spec : forall os, fetching os listener0 = true -> fetched os.
Proof.
  assert (G : forall os l, fetching os l = true -> forall os1 t1 os2 t2 os3 p, os = os1 ++ OReceive t1 :: os2 ++ OReceive t2 :: os3 ->
    completed (OReceive t1) (listen_all os1 l) = Some p -> is_logon p = true -> exists x y, os2 = x ++ OBiDi2 :: y /\ existsb is_receive x = false).
  { induction os as [|a os IH]; intros l H os1 t1 os2 t2 os3 p He Hc Hl; [destruct os1; discriminate|].
    cbn [fetching] in H. apply andb_prop in H. destruct H as [H1 H2]. destruct os1 as [|a' os1]; injection He as -> He.
    - cbn [listen_all fold_left] in Hc. rewrite Hc, Hl, He in H1. exact (soon_spec _ _ _ H1).
    - exact (IH _ H2 os1 t1 os2 t2 os3 p He Hc Hl). }
  intros os H os1 t os2 He u1 t1 u2 p Hu Hp Hl. subst os1. rewrite <- app_assoc in He. cbn [List.app] in He.
  exact (G os listener0 H u1 t1 u2 t os2 p He Hp Hl).
Qed.
