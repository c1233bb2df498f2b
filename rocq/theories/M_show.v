(** Model of the Debug views of texts, descriptors, tables and sections ([{:?}]): the tree of
    structures, lists, numbers and texts the formatter is asked to write. How the formatter
    lays the tree out and escapes texts (std::fmt) is not modelled here; M_debug does it for
    the views of packets. A Debug implementation that panics is [Panic]. *)
From Coq Require Import String.
From Verif Require Import Prelude M_text M_desc M_psi M_tables.
Local Open Scope string_scope.

(** what a Debug implementation asks the formatter to write *)
Inductive tree :=
| SNum (n : N)                                       (** Debug of an unsigned integer *)
| SText (s : list N)                                 (** Debug of a String with these chars *)
| SList (l : list tree)                             (** debug_list: Debug of Vec *)
| STuple (l : list tree)                            (** Debug of a tuple *)
| SStruct (name : string) (fields : list (string * tree)).  (** debug_struct *)

(** Debug of a Vec whose elements are shown by [f]; elements are formatted in order *)
Fixpoint show_each {A} (f : A -> res tree) (l : list A) : res (list tree) :=
  match l with
  | [] => Ok []
  | x :: l' => v <- f x ;; r <- show_each f l' ;; Ok (v :: r)%list
  end.
Definition show_vec {A} (f : A -> res tree) (l : list A) : res tree := r <- show_each f l ;; Ok (SList r).
(** Debug of Vec<u8> *)
Definition show_bytes (l : list N) : tree := SList (map SNum l).

(** Debug of StringDVB, textcode/mod.rs:124-131 *)
Definition dvb_show (t : dvb) : res tree :=
  s <- dvb_to_string t ;; Ok (SStruct "StringDVB" [("codepage", SNum (t_cp t)); ("text", SText s)]).

(** derive(Debug) of the descriptors and their items: raw.rs:12, x09.rs:20, x0a.rs:15 and 26,
    x0e.rs:18, x40.rs:18, x41.rs:15 and 26, x43.rs:22, x44.rs:22, x48.rs:19, x4d.rs:19,
    x4e.rs:28, x52.rs:19, x58.rs:24 and 39, x5a.rs:18, x83.rs:15 and 26 *)
Definition raw_show (d : d_raw) : res tree :=
  Ok (SStruct "DescRaw" [("tag", SNum (raw_tag d)); ("data", show_bytes (raw_data d))]).
Definition d09_show (d : d_09) : res tree :=
  Ok (SStruct "Desc09" [("caid", SNum (d09_caid d)); ("pid", SNum (d09_pid d)); ("data", show_bytes (d09_data d))]).
Definition d0Ai_show (d : d_0Ai) : res tree :=
  c <- dvb_show (d0A_code d) ;; Ok (SStruct "Desc0Ai" [("code", c); ("audio_type", SNum (d0A_type d))]).
Definition d0E_show (d : d_0E) : res tree := Ok (SStruct "Desc0E" [("bitrate", SNum (d0E_bitrate d))]).
Definition d41i_show (d : d_41i) : res tree :=
  Ok (SStruct "Desc41i" [("service_id", SNum (d41_sid d)); ("service_type", SNum (d41_type d))]).
Definition d43_show (d : d_43) : res tree :=
  Ok (SStruct "Desc43"
    [("frequency", SNum (d43_freq d)); ("orbital_position", SNum (d43_orbital d)); ("west_east_flag", SNum (d43_we d));
     ("polarization", SNum (d43_pol d)); ("rof", SNum (d43_rof d)); ("s2", SNum (d43_s2 d)); ("modulation", SNum (d43_mod d));
     ("symbol_rate", SNum (d43_rate d)); ("fec", SNum (d43_fec d))]).
Definition d44_show (d : d_44) : res tree :=
  Ok (SStruct "Desc44"
    [("frequency", SNum (d44_freq d)); ("fec_outer", SNum (d44_outer d)); ("modulation", SNum (d44_mod d));
     ("symbol_rate", SNum (d44_rate d)); ("fec", SNum (d44_fec d))]).
Definition d48_show (d : d_48) : res tree :=
  p <- dvb_show (d48_provider d) ;; n <- dvb_show (d48_name d) ;;
  Ok (SStruct "Desc48" [("service_type", SNum (d48_type d)); ("provider", p); ("name", n)]).
Definition d4D_show (d : d_4D) : res tree :=
  l <- dvb_show (d4D_lang d) ;; n <- dvb_show (d4D_name d) ;; t <- dvb_show (d4D_text d) ;;
  Ok (SStruct "Desc4D" [("lang", l); ("name", n); ("text", t)]).
Definition pair_show (p : dvb * dvb) : res tree :=
  a <- dvb_show (fst p) ;; b <- dvb_show (snd p) ;; Ok (STuple [a; b]).
Definition d4E_show (d : d_4E) : res tree :=
  l <- dvb_show (d4E_lang d) ;; i <- show_vec pair_show (d4E_items d) ;; t <- dvb_show (d4E_text d) ;;
  Ok (SStruct "Desc4E" [("number", SNum (d4E_num d)); ("last_number", SNum (d4E_last d)); ("lang", l); ("items", i); ("text", t)]).
Definition d58i_show (d : d_58i) : res tree :=
  c <- dvb_show (d58_code d) ;;
  Ok (SStruct "Desc58i"
    [("country_code", c); ("region_id", SNum (d58_region d)); ("offset_polarity", SNum (d58_pol d));
     ("offset", SNum (d58_offset d)); ("time_of_change", SNum (d58_time d)); ("next_offset", SNum (d58_next d))]).
Definition d5A_show (d : d_5A) : res tree :=
  Ok (SStruct "Desc5A"
    [("frequency", SNum (d5A_freq d)); ("bandwidth", SNum (d5A_bw d)); ("priority", SNum (d5A_prio d));
     ("time_slicing", SNum (d5A_ts d)); ("mpe_fec", SNum (d5A_fec d)); ("modulation", SNum (d5A_mod d));
     ("hierarchy", SNum (d5A_hier d)); ("code_rate_hp", SNum (d5A_hp d)); ("code_rate_lp", SNum (d5A_lp d));
     ("guard_interval", SNum (d5A_guard d)); ("transmission", SNum (d5A_trans d));
     ("other_frequency_flag", SNum (d5A_other d))]).
Definition d83i_show (d : d_83i) : res tree :=
  Ok (SStruct "Desc83i" [("service_id", SNum (d83_sid d)); ("visible", SNum (d83_visible d)); ("lcn", SNum (d83_lcn d))]).

(** a structure whose only field is a Vec *)
Definition show_items {A} (name : string) (f : A -> res tree) (l : list A) : res tree :=
  i <- show_vec f l ;; Ok (SStruct name [("items", i)]).
(** Debug of Descriptor, descriptors/mod.rs:81-83: that of the boxed descriptor *)
Definition desc_show (d : desc) : res tree :=
  match d with
  | D09 x => d09_show x | D0A l => show_items "Desc0A" d0Ai_show l | D0E x => d0E_show x
  | D40 t => n <- dvb_show t ;; Ok (SStruct "Desc40" [("name", n)])
  | D41 l => show_items "Desc41" d41i_show l | D43 x => d43_show x | D44 x => d44_show x | D48 x => d48_show x
  | D4D x => d4D_show x | D4E x => d4E_show x
  | D52 t => Ok (SStruct "Desc52" [("tag", SNum t)])
  | D58 l => show_items "Desc58" d58i_show l | D5A x => d5A_show x | D83 l => show_items "Desc83" d83i_show l
  | DRaw x => raw_show x
  end.
(** Debug of Descriptors, descriptors/mod.rs:134-137: that of the Vec *)
Definition descs_show (l : list desc) : res tree := show_vec desc_show l.

(** derive(Debug): pat.rs:26 and 61 *)
Definition pat_item_show (i : pat_item) : res tree :=
  Ok (SStruct "PatItem" [("pnr", SNum (pati_pnr i)); ("pid", SNum (pati_pid i))]).
Definition pat_show (t : pat) : res tree :=
  i <- show_vec pat_item_show (pat_items t) ;;
  Ok (SStruct "Pat" [("version", SNum (pat_version t)); ("tsid", SNum (pat_tsid t)); ("items", i)]).
(** derive(Debug): pmt.rs:24 and 108 *)
Definition pmt_item_show (i : pmt_item) : res tree :=
  d <- descs_show (pmti_descs i) ;;
  Ok (SStruct "PmtItem" [("stream_type", SNum (pmti_type i)); ("pid", SNum (pmti_pid i)); ("descriptors", d)]).
Definition pmt_show (t : pmt) : res tree :=
  d <- descs_show (pmt_descs t) ;; i <- show_vec pmt_item_show (pmt_items t) ;;
  Ok (SStruct "Pmt" [("version", SNum (pmt_version t)); ("pnr", SNum (pmt_pnr t)); ("pcr", SNum (pmt_pcr t));
                     ("descriptors", d); ("items", i)]).
(** derive(Debug): nit.rs:26 and 73 *)
Definition nit_item_show (i : nit_item) : res tree :=
  d <- descs_show (niti_descs i) ;;
  Ok (SStruct "NitItem" [("tsid", SNum (niti_tsid i)); ("onid", SNum (niti_onid i)); ("descriptors", d)]).
Definition nit_show (t : nit) : res tree :=
  d <- descs_show (nit_descs t) ;; i <- show_vec nit_item_show (nit_items t) ;;
  Ok (SStruct "Nit" [("table_id", SNum (nit_table t)); ("version", SNum (nit_version t)); ("network_id", SNum (nit_network t));
                     ("descriptors", d); ("items", i)]).
(** derive(Debug): sdt.rs:26 and 81 *)
Definition sdt_item_show (i : sdt_item) : res tree :=
  d <- descs_show (sdti_descs i) ;;
  Ok (SStruct "SdtItem"
    [("pnr", SNum (sdti_pnr i)); ("eit_schedule_flag", SNum (sdti_sched i)); ("eit_present_following_flag", SNum (sdti_pf i));
     ("running_status", SNum (sdti_status i)); ("free_ca_mode", SNum (sdti_ca i)); ("descriptors", d)]).
Definition sdt_show (t : sdt) : res tree :=
  i <- show_vec sdt_item_show (sdt_items t) ;;
  Ok (SStruct "Sdt" [("table_id", SNum (sdt_table t)); ("version", SNum (sdt_version t)); ("tsid", SNum (sdt_tsid t));
                     ("onid", SNum (sdt_onid t)); ("items", i)]).
(** derive(Debug): eit.rs:29 and 93 *)
Definition eit_item_show (i : eit_item) : res tree :=
  d <- descs_show (eiti_descs i) ;;
  Ok (SStruct "EitItem"
    [("event_id", SNum (eiti_id i)); ("start", SNum (eiti_start i)); ("duration", SNum (eiti_duration i));
     ("status", SNum (eiti_status i)); ("ca_mode", SNum (eiti_ca i)); ("descriptors", d)]).
Definition eit_show (t : eit) : res tree :=
  i <- show_vec eit_item_show (eit_items t) ;;
  Ok (SStruct "Eit" [("table_id", SNum (eit_table t)); ("version", SNum (eit_version t)); ("pnr", SNum (eit_pnr t));
                     ("tsid", SNum (eit_tsid t)); ("onid", SNum (eit_onid t)); ("items", i)]).
(** derive(Debug): tdt.rs:25 *)
Definition tdt_show (t : N) : res tree := Ok (SStruct "Tdt" [("time", SNum t)]).
(** derive(Debug): tot.rs:26 *)
Definition tot_show (t : tot) : res tree :=
  d <- descs_show (tot_descs t) ;; Ok (SStruct "Tot" [("time", SNum (tot_time t)); ("descriptors", d)]).
(** derive(Debug): psi/mod.rs:36 *)
Definition psi_show (p : psi) : res tree :=
  Ok (SStruct "Psi" [("buffer", show_bytes (p_buffer p)); ("size", SNum (N.of_nat (p_size p)));
                     ("pid", SNum (p_pid p)); ("cc", SNum (p_cc p))]).
