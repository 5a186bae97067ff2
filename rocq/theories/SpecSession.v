(** What a decoder answers to logon packets in the cutouts behind them (RCN-218) *)
From Verif Require Import Prelude Address Backoff SpecCodec RxState Rx SpecRx SpecExec SpecConf SpecCv SpecLogon SpecBidi SpecLayout SpecNode.

(** The command station and session are the stored ones, at most four sessions later *)
Definition recognizes (cid sid : Z) n : bool :=
  (cid =? fst (n_known n)) && (0 <=? sid - snd (n_known n)) && (sid - snd (n_known n) <=? 4).

(** The answer of decoder [n] to packet [p]; [free]: no packets to be passed over *)
Definition reply (free : bool) (p : list Z) n : option Z :=
  let k := nth 1 p 0 in
  let mine := same_id (firstn 4 (skipn 3 p)) (did (n_conf n)) in
  if negb (intact p) || negb (logon_enabled (n_conf n)) || (k <? 208) then None
  else if k <? 224 then
    if mine && negb (n_assigned n) then Some (select_answer (aval (n_own n))) else None
  else if k <? 240 then
    match understood (nth 7 p 0) (nth 8 p 0) (nth 9 p 0) with
    | Some _ => if mine then Some assign_answer else None
    | None => None
    end
  else if n_selected n || recognizes (256 * nth 2 p 0 + nth 3 p 0) (nth 4 p 0) n || (k mod 4 =? 2) then None
  else if (k mod 4 =? 3) || free then Some (enable_answer (did (n_conf n)))
  else None.

(** Two bytes in channel 1, six in channel 2 *)
Definition in_both_channels (a : option Z) (ds : list (list Z)) : Prop :=
  match a with
  | Some v => exists cs, ds = [firstn 2 cs; skipn 2 cs] /\ coded (base64 8 v) cs
  | None => ds = []
  end.

(** Calls between the last duration of a packet and the transmissions *)
Definition neutral (o : op) : Prop := is_receive o = false /\ o <> OBiDi1 /\ o <> OBiDi2.

(** ** All decoders at once *)

Definition replies (free : bool) (p : list Z) (ns : list node) : list Z :=
  flat_map (fun n => match reply free p n with Some v => [v] | None => [] end) ns.
(** The answers to packets [ps] one after the other *)
Fixpoint roll_call (free : bool) (ps : list (list Z)) (ns : list node) : list (list Z) :=
  match ps with
  | [] => []
  | p :: r => replies free p ns :: roll_call free r (map (hear p) ns)
  end.
Definition all_hear (ps : list (list Z)) (ns : list node) : list node := fold_left (fun ns p => map (hear p) ns) ps ns.

(** A SELECT and an ASSIGN packet of address [A] for decoder [n] *)
Definition call_up n (x : list Z * list Z * address) : Prop :=
  let '(sel, asg, A) := x in exists a b,
  logon_enabled (n_conf n) = true /\ n_assigned n = false /\
  says sel (Select (did (n_conf n))) /\ undamaged sel /\ says asg (Assign (did (n_conf n)) a b) /\ undamaged asg /\
  understood a b (nth 9 asg 0) = Some A /\ aval A <> 0.
Definition called (x : list Z * list Z * address) : list (list Z) := [fst (fst x); snd (fst x)].

(** What a station makes of the bytes of both channels: bytes back to digits, digits to a
    number, which is the library's own reading of it *)
Definition unique_id (v : Z) : list Z := let d := v mod 2 ^ 32 in [d / 2 ^ 24; d / 2 ^ 16 mod 256; d / 2 ^ 8 mod 256; d mod 256].
Definition own_number (v : Z) : Z := v / 2 ^ 32 mod 16384.
