(** What a decoder has to hear of an RMT channel. *)
From Verif Require Import Prelude SpecCodec Rmt RxState Rx SpecRx SpecRmt.

(** A transmission: the bytes, the memory the encoder gets in the successive calls and
    how long the hardware stays at the last level before the next transmission starts
    (https://github.com/espressif/esp-idf/issues/13003) *)
Record job := Job { j_bytes : list Z; j_memory : list nat; j_gap : Z }.

(** The gap lengthens the last half bit *)
Definition lengthen (g : Z) (ts : list Z) : list Z := removelast ts ++ [last ts 0 + g].

(** Times between the edges on the track while the jobs are done one after the other.
    None if the encoder fails or does not complete a packet. *)
Fixpoint channel (c : rmt_config) (m : rmt) (js : list job) : option (list Z * rmt) :=
  match js with
  | [] => Some ([], m)
  | j :: js' =>
      match rmt_session c (j_bytes j) m (j_memory j) with
      | Ok (ss, m', true) =>
          match channel c m' js' with
          | Some (ts, m2) => Some (lengthen (j_gap j) (durations ss) ++ ts, m2)
          | None => None
          end
      | _ => None
      end
  end.

(** Last half bit of a packet on the track *)
Definition closing (c : rmt_config) (j : job) : option bool :=
  half_bit ((if rc_endbit c =? 0 then rc_bit1 c else rc_endbit c) + j_gap j).

(** The last half bit is a one, or it is neither one nor zero and a one follows: of
    the cutout or of the preamble *)
Definition closes (c : rmt_config) (j : job) : Prop :=
  closing c j = Some true \/
  closing c j = None /\ (rc_bidibit c <> 0 \/ rc_zimo0 c = false).

(** Memory for the whole packet, no call runs out of it between two bytes *)
Definition supplied (c : rmt_config) (first : bool) (j : job) : Prop :=
  unsplit c first (j_bytes j) (j_memory j) /\
  (length (stream c first (j_bytes j)) <= SpecRmt.taken (j_memory j) (length (j_memory j)))%nat.

Fixpoint all_supplied (c : rmt_config) (first : bool) (js : list job) : Prop :=
  match js with
  | [] => True
  | j :: js' => supplied c first j /\ all_supplied c false js'
  end.

(** Packets complete on the track: the last one still waits for a one if its own last
    half bit is none *)
Definition complete_packets (c : rmt_config) (js : list job) : list (list Z) :=
  match rev js with
  | j :: _ => match closing c j with
              | Some true => map j_bytes js
              | _ => removelast (map j_bytes js)
              end
  | [] => []
  end.
