(** The example examples/repl: a command station, a decoder and a user in one process *)
From Verif Require Import Prelude Address Packets Tx RxState Rx.

(** ** Decoder of the example *)

(** Decoder::Decoder, examples/repl/src/decoder.cpp:9-13: the array _cvs
    (decoder.hpp:41, 1024 bytes, all zero) with CV29, CV1 and CV8 set *)
Definition repl_cvs : Z -> Z := fun a =>
  if a =? 29 - 1 then 2 else if a =? 1 - 1 then 3 else if a =? 8 - 1 then 145 else 0.

Definition in_array (a : Z) : bool := (0 <=? a) && (a <? 1024).

Definition store_at (m : Z -> Z) (a b : Z) : Z -> Z := fun x => if x =? a then b else m x.

(** Decoder::readCv and writeCv, decoder.cpp:42-72. Reading a byte checks the index. The
    other three do not; what they answer outside of the array does not matter, such a call
    is undefined, see [outside]. Texts written to the terminal are left out. The functions
    are called by the library only; rand and the clock are not used by a decoder without
    automatic logon, RailCom is off in CV29. *)
Definition repl_env : Env (Z -> Z) :=
  Mk_env _
    (fun m a => (if in_array a then m a else 0, m))
    (fun m a b => (if in_array a then m a else 0, m))
    (fun m a v p => (if in_array a then negb (Z.land (m a) (Z.shiftl 1 p) =? 0) else false, m))
    (fun m a b => if in_array a then (b, store_at m a b) else (0, m))
    (fun m a v p =>
       if in_array a then
         let x := u8 (Z.lor (Z.land (m a) (Z.lnot (Z.shiftl 1 p))) (Z.shiftl (Z.b2z v) p)) in
         (negb (Z.land x (Z.shiftl 1 p) =? 0), store_at m a x)
       else (false, m))
    (fun m e => (None, m))
    (fun m e => m)
    (fun m => (0, m))
    (fun m => (0, m))
    false false false false.

(** Calls that index _cvs without a check, decoder.cpp:53, 59, 66-68 *)
Definition outside (e : event) : bool :=
  match e with
  | EWriteCv a _ _ | EReadCvBit a _ _ _ | EWriteCvBit a _ _ _ => negb (in_array a)
  | _ => false
  end.

(** ** Commands of the user *)

(** The menu, main.cpp:68-146 *)
Inductive repl_cmd :=
| RAddress (a : Z) | RSpeed (dir : bool) (speed : Z) | RF4_F0 (state : Z) | RF8_F5 (state : Z)
| RReadByte (cv : Z) | RWriteByte (cv b : Z)
| RReadBit (cv : Z) (bit : bool) (pos : Z) | RWriteBit (cv : Z) (bit : bool) (pos : Z).

(** addr = a, main.cpp:71: Address::operator=(value_type), address.hpp:25-28, keeps the
    type *)
Definition assign_address (a : address) (v : Z) : address := Addr v (atyp a) (arev a).

(** What a command puts into the FIFO, main.cpp:79-145. [dir << 7u | speed] becomes a
    uint8_t argument. *)
Definition repl_packets (a : address) (c : repl_cmd) : res (list (list Z)) :=
  match c with
  | RAddress _ => Ok []
  | RSpeed dir speed =>
      rbind (make_advanced_operations_speed_packet a (u8 (Z.lor (Z.shiftl (Z.b2z dir) 7) speed))) (fun p => Ok [p])
  | RF4_F0 state => rbind (make_function_group_f4_f0_packet a state) (fun p => Ok [p])
  | RF8_F5 state => rbind (make_function_group_f8_f5_packet a state) (fun p => Ok [p])
  | RReadByte cv => rbind (make_cv_access_long_verify_packet a cv 0) (fun p => Ok [p])
  | RWriteByte cv b => rbind (make_cv_access_long_write_packet a cv b) (fun p => Ok [p; p])
  | RReadBit cv bit pos => rbind (make_cv_access_long_verify_bit_packet a cv bit pos) (fun p => Ok [p])
  | RWriteBit cv bit pos => rbind (make_cv_access_long_write_bit_packet a cv bit pos) (fun p => Ok [p; p])
  end.

(** ** The three threads *)

Record repl := Repl {
  p_station : tx_state;                  (* command_station *)
  p_decoder : option (st (Z -> Z));      (* decoder, once timer_irq_handler is set *)
  p_fifo : list (list Z);                (* fifo *)
  p_addr : address }.                    (* addr *)

(** What can be observed: calls of the decoder library into Decoder, packets the station
    dropped, packets the decoder took from its queue *)
Record rout := Rout { o_calls : list event; o_lost : list (list Z); o_done : list (list Z) }.
Definition nothing : rout := Rout [] [] [].

(** An exception ends the process: std::bad_function_call is not caught *)
Inductive rres (A : Type) := Done (a : A) | Undefined (r : ub) | BadFunctionCall.
Arguments Done {A}. Arguments Undefined {A}. Arguments BadFunctionCall {A}.

Definition rdo {A B} (x : rres A) (f : A -> rres B) : rres B :=
  match x with Done a => f a | Undefined r => Undefined r | BadFunctionCall => BadFunctionCall end.
Definition defined {A} (x : res A) : rres A := match x with Ok a => Done a | UB r => Undefined r end.

(** A call of the decoder library *)
Definition call_decoder {A} (f : M (I := Z -> Z) A) (s : st (Z -> Z)) : rres (A * st (Z -> Z) * list event) :=
  rdo (defined (f s)) (fun '(a, s', es) => if existsb outside es then Undefined OutOfBounds else Done (a, s', es)).

(** Start of command_station_task, main.cpp:36-45, and of the process, main.cpp:158-166.
    DCC_TX_MIN_PREAMBLE_BITS is 17. *)
Definition repl_config : tx_config := TxConfig 17 58 100 false true.
Definition repl0 : repl :=
  Repl (match tx_init repl_config (tx_init_state 4) with Ok s => s | UB _ => tx_init_state 4 end)
    None [] (Addr 3 ATShort false).

(** One step of a thread. The loop bodies of the tasks and the handlers of the menu are
    taken as atomic; the threads run in any order. *)
Inductive rstep :=
| RStart            (* decoder_task up to the loop, main.cpp:18-25 *)
| RExecute          (* its loop body, main.cpp:28-31 *)
| RLoop             (* loop body of command_station_task, main.cpp:46-58 *)
| RType (c : repl_cmd).

Definition repl_step (o : rstep) (p : repl) : rres (repl * rout) :=
  match o with
  | RStart =>
      match p_decoder p with
      | Some _ => Done (p, nothing)
      | None =>
          rdo (call_decoder (init repl_env) (st0 repl_cvs)) (fun '(_, s, es) =>
          Done (Repl (p_station p) (Some s) (p_fifo p) (p_addr p), Rout es [] []))
      end
  | RExecute =>
      match p_decoder p with
      | None => Done (p, nothing)
      | Some s =>
          rdo (call_decoder (execute repl_env) s) (fun '(_, s', es) =>
          Done (Repl (p_station p) (Some s') (p_fifo p) (p_addr p),
                Rout es [] (firstn (length (r_deque (rxs s)) - length (r_deque (rxs s'))) (r_deque (rxs s)))))
      end
  | RLoop =>
      rdo (defined (transmit (p_station p))) (fun '(t, tx, _) =>
      match p_decoder p with
      | None => BadFunctionCall
      | Some s =>
          rdo (call_decoder (receive repl_env t) s) (fun '(_, s', es) =>
          match p_fifo p with
          | [] => Done (Repl tx (Some s') [] (p_addr p), Rout es [] [])
          | q :: r =>
              rdo (defined (tx_bytes q tx)) (fun tx' =>
              Done (Repl tx' (Some s') r (p_addr p),
                    Rout es (if (tx_size tx =? tx_deque_size)%nat then [q] else []) []))
          end)
      end)
  | RType c =>
      rdo (defined (repl_packets (p_addr p) c)) (fun ps =>
      Done (Repl (p_station p) (p_decoder p) (p_fifo p ++ ps)
              (match c with RAddress a => assign_address (p_addr p) a | _ => p_addr p end), nothing))
  end.

Definition rcat (a b : rout) : rout :=
  Rout (o_calls a ++ o_calls b) (o_lost a ++ o_lost b) (o_done a ++ o_done b).

Fixpoint repl_run (os : list rstep) (p : repl) : rres (repl * rout) :=
  match os with
  | [] => Done (p, nothing)
  | o :: r =>
      rdo (repl_step o p) (fun '(p1, a) =>
      rdo (repl_run r p1) (fun '(p2, b) => Done (p2, rcat a b)))
  end.
