(** Fields of the decoder (include/dcc/rx/crtp_base.hpp:1199-1257).
    The record update functions [set_...] at the end model plain assignments to
    the field of the same name; they have no counterpart line of their own. *)
From Verif Require Import Prelude Address Backoff.

(** enum State, rx/crtp_base.hpp:1221 *)
Inductive rx_phase := Preamble | Startbit | Data | Endbit.

(** Bit receiver part of rx::CrtpBase, rx/crtp_base.hpp:1208,1213,1217-1218,1221,1243-1244 *)
Record fsm := Mk_fsm {
  f_state : rx_phase;
  f_bit_count : nat;
  f_byte : Z;
  f_checksum : Z;
  f_is_halfbit : bool;
  f_packet : list Z;
  f_packet_end : bool }.

(** Quality of service counters, rx/crtp_base.hpp:1214-1215,1240 *)
Record cnts := Mk_cnts {
  packet_count : Z;
  preamble_count : Z;
  qos : Z }.

(** struct Addresses (addresses.hpp:17-22), field _addrs, rx/crtp_base.hpp:1211 *)
Record addrs := Mk_addrs {
  primary : address;
  consist : address;
  logon : address;
  received : address }.

(** Switches set by init(), rx/crtp_base.hpp:1228,1245-1248,1254-1255 *)
Record confs := Mk_confs {
  ch1_addr_enabled : bool;
  ch2_data_enabled : bool;
  ch2_consist_enabled : bool;
  logon_enabled : bool;
  cvs_locked : bool;
  f0_exception : bool;
  did : list Z }.

(** Logon state, rx/crtp_base.hpp:1203,1234,1237-1238,1249-1251 *)
Record logons := Mk_logons {
  logon_selected : bool;
  logon_assigned : bool;
  logon_store : bool;
  cid_front : Z;
  cid_back : Z;
  sid_front : Z;
  sid_back : Z;
  logon_backoff : backoff;
  logon_deque : list (list Z) }.

(** BiDi queues and channel buffers, rx/crtp_base.hpp:1201-1206,1231-1232,1257 *)
Record bidis := Mk_bidis {
  dyn_deque : list (list Z);
  tos_deque : list (list Z);
  adr_deque : list (list Z);
  pom_deque : list (list Z);
  block_dyn : bool;
  ch1 : list Z;
  ch2 : list Z }.

(** CV access state, mode and flags, rx/crtp_base.hpp:1209,1216,1219,1222,1253,1256 *)
Record cvsts := Mk_cvsts {
  last_own_cv_packet : list Z;
  own_equal_cv_packets_count : nat;
  index_reg : Z;
  service_mode : bool;
  man_flag : bool;
  enabled_flag : bool }.

(** Time points and tip-off backoff, rx/crtp_base.hpp:1225-1226,1235; ticks are ns *)
Record times := Mk_times {
  last_packet_tp : Z;
  tos_tp : Z;
  tos_backoff : backoff }.

(** All fields of rx::CrtpBase, rx/crtp_base.hpp:1199-1257, grouped; r_deque is _deque (1200) *)
Record rx := Mk_rx {
  r_fsm : fsm;
  r_deque : list (list Z);
  r_cnt : cnts;
  r_addrs : addrs;
  r_conf : confs;
  r_logon : logons;
  r_bidi : bidis;
  r_cv : cvsts;
  r_time : times }.

Definition upd_f_state (v : rx_phase) (s : fsm) : fsm := Mk_fsm v (f_bit_count s) (f_byte s) (f_checksum s) (f_is_halfbit s) (f_packet s) (f_packet_end s).
Definition upd_f_bit_count (v : nat) (s : fsm) : fsm := Mk_fsm (f_state s) v (f_byte s) (f_checksum s) (f_is_halfbit s) (f_packet s) (f_packet_end s).
Definition upd_f_byte (v : Z) (s : fsm) : fsm := Mk_fsm (f_state s) (f_bit_count s) v (f_checksum s) (f_is_halfbit s) (f_packet s) (f_packet_end s).
Definition upd_f_checksum (v : Z) (s : fsm) : fsm := Mk_fsm (f_state s) (f_bit_count s) (f_byte s) v (f_is_halfbit s) (f_packet s) (f_packet_end s).
Definition upd_f_is_halfbit (v : bool) (s : fsm) : fsm := Mk_fsm (f_state s) (f_bit_count s) (f_byte s) (f_checksum s) v (f_packet s) (f_packet_end s).
Definition upd_f_packet (v : list Z) (s : fsm) : fsm := Mk_fsm (f_state s) (f_bit_count s) (f_byte s) (f_checksum s) (f_is_halfbit s) v (f_packet_end s).
Definition upd_f_packet_end (v : bool) (s : fsm) : fsm := Mk_fsm (f_state s) (f_bit_count s) (f_byte s) (f_checksum s) (f_is_halfbit s) (f_packet s) v.
Definition upd_packet_count (v : Z) (s : cnts) : cnts := Mk_cnts v (preamble_count s) (qos s).
Definition upd_preamble_count (v : Z) (s : cnts) : cnts := Mk_cnts (packet_count s) v (qos s).
Definition upd_qos (v : Z) (s : cnts) : cnts := Mk_cnts (packet_count s) (preamble_count s) v.
Definition upd_primary (v : address) (s : addrs) : addrs := Mk_addrs v (consist s) (logon s) (received s).
Definition upd_consist (v : address) (s : addrs) : addrs := Mk_addrs (primary s) v (logon s) (received s).
Definition upd_logon (v : address) (s : addrs) : addrs := Mk_addrs (primary s) (consist s) v (received s).
Definition upd_received (v : address) (s : addrs) : addrs := Mk_addrs (primary s) (consist s) (logon s) v.
Definition upd_ch1_addr_enabled (v : bool) (s : confs) : confs := Mk_confs v (ch2_data_enabled s) (ch2_consist_enabled s) (logon_enabled s) (cvs_locked s) (f0_exception s) (did s).
Definition upd_ch2_data_enabled (v : bool) (s : confs) : confs := Mk_confs (ch1_addr_enabled s) v (ch2_consist_enabled s) (logon_enabled s) (cvs_locked s) (f0_exception s) (did s).
Definition upd_ch2_consist_enabled (v : bool) (s : confs) : confs := Mk_confs (ch1_addr_enabled s) (ch2_data_enabled s) v (logon_enabled s) (cvs_locked s) (f0_exception s) (did s).
Definition upd_logon_enabled (v : bool) (s : confs) : confs := Mk_confs (ch1_addr_enabled s) (ch2_data_enabled s) (ch2_consist_enabled s) v (cvs_locked s) (f0_exception s) (did s).
Definition upd_cvs_locked (v : bool) (s : confs) : confs := Mk_confs (ch1_addr_enabled s) (ch2_data_enabled s) (ch2_consist_enabled s) (logon_enabled s) v (f0_exception s) (did s).
Definition upd_f0_exception (v : bool) (s : confs) : confs := Mk_confs (ch1_addr_enabled s) (ch2_data_enabled s) (ch2_consist_enabled s) (logon_enabled s) (cvs_locked s) v (did s).
Definition upd_did (v : list Z) (s : confs) : confs := Mk_confs (ch1_addr_enabled s) (ch2_data_enabled s) (ch2_consist_enabled s) (logon_enabled s) (cvs_locked s) (f0_exception s) v.
Definition upd_logon_selected (v : bool) (s : logons) : logons := Mk_logons v (logon_assigned s) (logon_store s) (cid_front s) (cid_back s) (sid_front s) (sid_back s) (logon_backoff s) (logon_deque s).
Definition upd_logon_assigned (v : bool) (s : logons) : logons := Mk_logons (logon_selected s) v (logon_store s) (cid_front s) (cid_back s) (sid_front s) (sid_back s) (logon_backoff s) (logon_deque s).
Definition upd_logon_store (v : bool) (s : logons) : logons := Mk_logons (logon_selected s) (logon_assigned s) v (cid_front s) (cid_back s) (sid_front s) (sid_back s) (logon_backoff s) (logon_deque s).
Definition upd_cid_front (v : Z) (s : logons) : logons := Mk_logons (logon_selected s) (logon_assigned s) (logon_store s) v (cid_back s) (sid_front s) (sid_back s) (logon_backoff s) (logon_deque s).
Definition upd_cid_back (v : Z) (s : logons) : logons := Mk_logons (logon_selected s) (logon_assigned s) (logon_store s) (cid_front s) v (sid_front s) (sid_back s) (logon_backoff s) (logon_deque s).
Definition upd_sid_front (v : Z) (s : logons) : logons := Mk_logons (logon_selected s) (logon_assigned s) (logon_store s) (cid_front s) (cid_back s) v (sid_back s) (logon_backoff s) (logon_deque s).
Definition upd_sid_back (v : Z) (s : logons) : logons := Mk_logons (logon_selected s) (logon_assigned s) (logon_store s) (cid_front s) (cid_back s) (sid_front s) v (logon_backoff s) (logon_deque s).
Definition upd_logon_backoff (v : backoff) (s : logons) : logons := Mk_logons (logon_selected s) (logon_assigned s) (logon_store s) (cid_front s) (cid_back s) (sid_front s) (sid_back s) v (logon_deque s).
Definition upd_logon_deque (v : list (list Z)) (s : logons) : logons := Mk_logons (logon_selected s) (logon_assigned s) (logon_store s) (cid_front s) (cid_back s) (sid_front s) (sid_back s) (logon_backoff s) v.
Definition upd_dyn_deque (v : list (list Z)) (s : bidis) : bidis := Mk_bidis v (tos_deque s) (adr_deque s) (pom_deque s) (block_dyn s) (ch1 s) (ch2 s).
Definition upd_tos_deque (v : list (list Z)) (s : bidis) : bidis := Mk_bidis (dyn_deque s) v (adr_deque s) (pom_deque s) (block_dyn s) (ch1 s) (ch2 s).
Definition upd_adr_deque (v : list (list Z)) (s : bidis) : bidis := Mk_bidis (dyn_deque s) (tos_deque s) v (pom_deque s) (block_dyn s) (ch1 s) (ch2 s).
Definition upd_pom_deque (v : list (list Z)) (s : bidis) : bidis := Mk_bidis (dyn_deque s) (tos_deque s) (adr_deque s) v (block_dyn s) (ch1 s) (ch2 s).
Definition upd_block_dyn (v : bool) (s : bidis) : bidis := Mk_bidis (dyn_deque s) (tos_deque s) (adr_deque s) (pom_deque s) v (ch1 s) (ch2 s).
Definition upd_ch1 (v : list Z) (s : bidis) : bidis := Mk_bidis (dyn_deque s) (tos_deque s) (adr_deque s) (pom_deque s) (block_dyn s) v (ch2 s).
Definition upd_ch2 (v : list Z) (s : bidis) : bidis := Mk_bidis (dyn_deque s) (tos_deque s) (adr_deque s) (pom_deque s) (block_dyn s) (ch1 s) v.
Definition upd_last_own_cv_packet (v : list Z) (s : cvsts) : cvsts := Mk_cvsts v (own_equal_cv_packets_count s) (index_reg s) (service_mode s) (man_flag s) (enabled_flag s).
Definition upd_own_equal_cv_packets_count (v : nat) (s : cvsts) : cvsts := Mk_cvsts (last_own_cv_packet s) v (index_reg s) (service_mode s) (man_flag s) (enabled_flag s).
Definition upd_index_reg (v : Z) (s : cvsts) : cvsts := Mk_cvsts (last_own_cv_packet s) (own_equal_cv_packets_count s) v (service_mode s) (man_flag s) (enabled_flag s).
Definition upd_service_mode (v : bool) (s : cvsts) : cvsts := Mk_cvsts (last_own_cv_packet s) (own_equal_cv_packets_count s) (index_reg s) v (man_flag s) (enabled_flag s).
Definition upd_man_flag (v : bool) (s : cvsts) : cvsts := Mk_cvsts (last_own_cv_packet s) (own_equal_cv_packets_count s) (index_reg s) (service_mode s) v (enabled_flag s).
Definition upd_enabled_flag (v : bool) (s : cvsts) : cvsts := Mk_cvsts (last_own_cv_packet s) (own_equal_cv_packets_count s) (index_reg s) (service_mode s) (man_flag s) v.
Definition upd_last_packet_tp (v : Z) (s : times) : times := Mk_times v (tos_tp s) (tos_backoff s).
Definition upd_tos_tp (v : Z) (s : times) : times := Mk_times (last_packet_tp s) v (tos_backoff s).
Definition upd_tos_backoff (v : backoff) (s : times) : times := Mk_times (last_packet_tp s) (tos_tp s) v.
Definition set_r_fsm (v : fsm) (s : rx) : rx := Mk_rx v (r_deque s) (r_cnt s) (r_addrs s) (r_conf s) (r_logon s) (r_bidi s) (r_cv s) (r_time s).
Definition set_r_deque (v : list (list Z)) (s : rx) : rx := Mk_rx (r_fsm s) v (r_cnt s) (r_addrs s) (r_conf s) (r_logon s) (r_bidi s) (r_cv s) (r_time s).
Definition set_r_cnt (v : cnts) (s : rx) : rx := Mk_rx (r_fsm s) (r_deque s) v (r_addrs s) (r_conf s) (r_logon s) (r_bidi s) (r_cv s) (r_time s).
Definition set_r_addrs (v : addrs) (s : rx) : rx := Mk_rx (r_fsm s) (r_deque s) (r_cnt s) v (r_conf s) (r_logon s) (r_bidi s) (r_cv s) (r_time s).
Definition set_r_conf (v : confs) (s : rx) : rx := Mk_rx (r_fsm s) (r_deque s) (r_cnt s) (r_addrs s) v (r_logon s) (r_bidi s) (r_cv s) (r_time s).
Definition set_r_logon (v : logons) (s : rx) : rx := Mk_rx (r_fsm s) (r_deque s) (r_cnt s) (r_addrs s) (r_conf s) v (r_bidi s) (r_cv s) (r_time s).
Definition set_r_bidi (v : bidis) (s : rx) : rx := Mk_rx (r_fsm s) (r_deque s) (r_cnt s) (r_addrs s) (r_conf s) (r_logon s) v (r_cv s) (r_time s).
Definition set_r_cv (v : cvsts) (s : rx) : rx := Mk_rx (r_fsm s) (r_deque s) (r_cnt s) (r_addrs s) (r_conf s) (r_logon s) (r_bidi s) v (r_time s).
Definition set_r_time (v : times) (s : rx) : rx := Mk_rx (r_fsm s) (r_deque s) (r_cnt s) (r_addrs s) (r_conf s) (r_logon s) (r_bidi s) (r_cv s) v.

Definition set_f_state (v : rx_phase) (s : rx) : rx := set_r_fsm (upd_f_state v (r_fsm s)) s.
Definition set_f_bit_count (v : nat) (s : rx) : rx := set_r_fsm (upd_f_bit_count v (r_fsm s)) s.
Definition set_f_byte (v : Z) (s : rx) : rx := set_r_fsm (upd_f_byte v (r_fsm s)) s.
Definition set_f_checksum (v : Z) (s : rx) : rx := set_r_fsm (upd_f_checksum v (r_fsm s)) s.
Definition set_f_is_halfbit (v : bool) (s : rx) : rx := set_r_fsm (upd_f_is_halfbit v (r_fsm s)) s.
Definition set_f_packet (v : list Z) (s : rx) : rx := set_r_fsm (upd_f_packet v (r_fsm s)) s.
Definition set_f_packet_end (v : bool) (s : rx) : rx := set_r_fsm (upd_f_packet_end v (r_fsm s)) s.
Definition set_packet_count (v : Z) (s : rx) : rx := set_r_cnt (upd_packet_count v (r_cnt s)) s.
Definition set_preamble_count (v : Z) (s : rx) : rx := set_r_cnt (upd_preamble_count v (r_cnt s)) s.
Definition set_qos (v : Z) (s : rx) : rx := set_r_cnt (upd_qos v (r_cnt s)) s.
Definition set_primary (v : address) (s : rx) : rx := set_r_addrs (upd_primary v (r_addrs s)) s.
Definition set_consist (v : address) (s : rx) : rx := set_r_addrs (upd_consist v (r_addrs s)) s.
Definition set_logon (v : address) (s : rx) : rx := set_r_addrs (upd_logon v (r_addrs s)) s.
Definition set_received (v : address) (s : rx) : rx := set_r_addrs (upd_received v (r_addrs s)) s.
Definition set_ch1_addr_enabled (v : bool) (s : rx) : rx := set_r_conf (upd_ch1_addr_enabled v (r_conf s)) s.
Definition set_ch2_data_enabled (v : bool) (s : rx) : rx := set_r_conf (upd_ch2_data_enabled v (r_conf s)) s.
Definition set_ch2_consist_enabled (v : bool) (s : rx) : rx := set_r_conf (upd_ch2_consist_enabled v (r_conf s)) s.
Definition set_logon_enabled (v : bool) (s : rx) : rx := set_r_conf (upd_logon_enabled v (r_conf s)) s.
Definition set_cvs_locked (v : bool) (s : rx) : rx := set_r_conf (upd_cvs_locked v (r_conf s)) s.
Definition set_f0_exception (v : bool) (s : rx) : rx := set_r_conf (upd_f0_exception v (r_conf s)) s.
Definition set_did (v : list Z) (s : rx) : rx := set_r_conf (upd_did v (r_conf s)) s.
Definition set_logon_selected (v : bool) (s : rx) : rx := set_r_logon (upd_logon_selected v (r_logon s)) s.
Definition set_logon_assigned (v : bool) (s : rx) : rx := set_r_logon (upd_logon_assigned v (r_logon s)) s.
Definition set_logon_store (v : bool) (s : rx) : rx := set_r_logon (upd_logon_store v (r_logon s)) s.
Definition set_cid_front (v : Z) (s : rx) : rx := set_r_logon (upd_cid_front v (r_logon s)) s.
Definition set_cid_back (v : Z) (s : rx) : rx := set_r_logon (upd_cid_back v (r_logon s)) s.
Definition set_sid_front (v : Z) (s : rx) : rx := set_r_logon (upd_sid_front v (r_logon s)) s.
Definition set_sid_back (v : Z) (s : rx) : rx := set_r_logon (upd_sid_back v (r_logon s)) s.
Definition set_logon_backoff (v : backoff) (s : rx) : rx := set_r_logon (upd_logon_backoff v (r_logon s)) s.
Definition set_logon_deque (v : list (list Z)) (s : rx) : rx := set_r_logon (upd_logon_deque v (r_logon s)) s.
Definition set_dyn_deque (v : list (list Z)) (s : rx) : rx := set_r_bidi (upd_dyn_deque v (r_bidi s)) s.
Definition set_tos_deque (v : list (list Z)) (s : rx) : rx := set_r_bidi (upd_tos_deque v (r_bidi s)) s.
Definition set_adr_deque (v : list (list Z)) (s : rx) : rx := set_r_bidi (upd_adr_deque v (r_bidi s)) s.
Definition set_pom_deque (v : list (list Z)) (s : rx) : rx := set_r_bidi (upd_pom_deque v (r_bidi s)) s.
Definition set_block_dyn (v : bool) (s : rx) : rx := set_r_bidi (upd_block_dyn v (r_bidi s)) s.
Definition set_ch1 (v : list Z) (s : rx) : rx := set_r_bidi (upd_ch1 v (r_bidi s)) s.
Definition set_ch2 (v : list Z) (s : rx) : rx := set_r_bidi (upd_ch2 v (r_bidi s)) s.
Definition set_last_own_cv_packet (v : list Z) (s : rx) : rx := set_r_cv (upd_last_own_cv_packet v (r_cv s)) s.
Definition set_own_equal_cv_packets_count (v : nat) (s : rx) : rx := set_r_cv (upd_own_equal_cv_packets_count v (r_cv s)) s.
Definition set_index_reg (v : Z) (s : rx) : rx := set_r_cv (upd_index_reg v (r_cv s)) s.
Definition set_service_mode (v : bool) (s : rx) : rx := set_r_cv (upd_service_mode v (r_cv s)) s.
Definition set_man_flag (v : bool) (s : rx) : rx := set_r_cv (upd_man_flag v (r_cv s)) s.
Definition set_enabled_flag (v : bool) (s : rx) : rx := set_r_cv (upd_enabled_flag v (r_cv s)) s.
Definition set_last_packet_tp (v : Z) (s : rx) : rx := set_r_time (upd_last_packet_tp v (r_time s)) s.
Definition set_tos_tp (v : Z) (s : rx) : rx := set_r_time (upd_tos_tp v (r_time s)) s.
Definition set_tos_backoff (v : backoff) (s : rx) : rx := set_r_time (upd_tos_backoff v (r_time s)) s.

(** Default member initializers, rx/crtp_base.hpp:1199-1257 *)
Definition rx0 : rx :=
  Mk_rx (Mk_fsm Preamble 0 0 0 false [] false) []
    (Mk_cnts 0 0 0)
    (Mk_addrs addr0 addr0 addr0 addr0)
    (Mk_confs false false false false false false [0; 0; 0; 0])
    (Mk_logons false false false 0 0 0 0 backoff0 [])
    (Mk_bidis [] [] [] [] false [0; 0] [0; 0; 0; 0; 0; 0])
    (Mk_cvsts [] 0 1 false false false)
    (Mk_times 0 0 backoff0).
