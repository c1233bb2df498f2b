(** Specification: what is left of values that do not fit their place on the wire. Bits above the width of a field
    are or-ed into the field above it, as far as that does not hold constant bits, and lost above the byte or word. *)
From Verif Require Import Prelude M_text M_desc S_utils S_desc M_tables S_tables.

Definition fit_58 (i : d_58i) : d_58i :=
  mk58i (d58_code i) (N.lor (d58_region i) (d58_pol i / 4) mod 64) (d58_pol i mod 2) (d58_offset i mod 1440) (d58_time i) (d58_next i mod 1440).
Definition fit_83 (i : d_83i) : d_83i := mk83i (d83_sid i) (N.lor (d83_visible i) (d83_lcn i / 32768) mod 2) (d83_lcn i mod 1024).
Definition fit_desc (d : desc) : desc :=
  match d with
  | D09 d => D09 (mk09 (d09_caid d) (d09_pid d mod 8192) (d09_data d))
  | D0E d => D0E (mk0E (d0E_bitrate d mod 4194304))
  | D43 d => D43 (mk43 (d43_freq d / 10 * 10) (d43_orbital d / 6 * 6)
      (N.lor (d43_we d) (N.lor (d43_pol d / 4) (N.lor (d43_rof d / 16) (N.lor (d43_s2 d / 32) (d43_mod d / 128)))) mod 2)
      (N.lor (d43_pol d) (N.lor (d43_rof d / 4) (N.lor (d43_s2 d / 8) (d43_mod d / 32))) mod 4)
      (N.lor (d43_rof d) (N.lor (d43_s2 d / 2) (d43_mod d / 8)) mod 4)
      (N.lor (d43_s2 d) (d43_mod d / 4) mod 2) (d43_mod d mod 4) (d43_rate d) (d43_fec d))
  | D44 d => D44 (mk44 (d44_freq d / 100 * 100) (d44_outer d mod 16) (d44_mod d) (d44_rate d) (d44_fec d))
  | D4E d => D4E (mk4E (N.lor (d4E_num d) (d4E_last d / 16) mod 16) (d4E_last d mod 16) (d4E_lang d) (d4E_items d) (d4E_text d))
  | D58 items => D58 (map fit_58 items)
  | D5A d => D5A (mk5A (d5A_freq d / 10 * 10)
      (N.lor (d5A_bw d) (N.lor (d5A_prio d / 2) (N.lor (d5A_ts d / 4) (d5A_fec d / 8))) mod 8)
      (N.lor (d5A_prio d) (N.lor (d5A_ts d / 2) (d5A_fec d / 4)) mod 2)
      (N.lor (d5A_ts d) (d5A_fec d / 2) mod 2) (d5A_fec d mod 2)
      (N.lor (d5A_mod d) (N.lor (d5A_hier d / 8) (d5A_hp d / 64)) mod 4) (N.lor (d5A_hier d) (d5A_hp d / 8) mod 8) (d5A_hp d mod 8)
      (N.lor (d5A_lp d) (N.lor (d5A_guard d / 4) (N.lor (d5A_trans d / 16) (d5A_other d / 32))) mod 8)
      (N.lor (d5A_guard d) (N.lor (d5A_trans d / 4) (d5A_other d / 8)) mod 4)
      (N.lor (d5A_trans d) (d5A_other d / 2) mod 4) (d5A_other d mod 2))
  | D83 items => D83 (map fit_83 items)
  | d => d
  end.
Definition fit_loop (ds : list desc) : list desc := map fit_desc ds.

Definition fit_pat (t : pat) : pat := mkPat (pat_version t mod 32) (pat_tsid t) (map (fun i => mkPatI (pati_pnr i) (pati_pid i mod 8192)) (pat_items t)).
Definition fit_pmt (t : pmt) : pmt :=
  mkPmt (pmt_version t mod 32) (pmt_pnr t) (pmt_pcr t mod 8192) (fit_loop (pmt_descs t))
    (map (fun i => mkPmtI (pmti_type i) (pmti_pid i mod 8192) (fit_loop (pmti_descs i))) (pmt_items t)).
Definition fit_nit (t : nit) : nit :=
  mkNit (nit_table t) (nit_version t mod 32) (nit_network t) (fit_loop (nit_descs t))
    (map (fun i => mkNitI (niti_tsid i) (niti_onid i) (fit_loop (niti_descs i))) (nit_items t)).
Definition fit_sdt (t : sdt) : sdt :=
  mkSdt (sdt_table t) (sdt_version t mod 32) (sdt_tsid t) (sdt_onid t)
    (map (fun i => mkSdtI (sdti_pnr i) (N.lor (sdti_sched i) (sdti_pf i / 2) mod 2) (sdti_pf i mod 2)
                     (N.lor (sdti_status i) (sdti_ca i / 2) mod 8) (sdti_ca i mod 2) (fit_loop (sdti_descs i))) (sdt_items t)).
Definition fit_event (i : eit_item) : eit_item :=
  mkEitI (eiti_id i) (eiti_start i) (eiti_duration i mod 86400) (N.lor (eiti_status i) (eiti_ca i / 2) mod 8) (eiti_ca i mod 2) (fit_loop (eiti_descs i)).
Definition fit_eit (t : eit) : eit := mkEit (eit_table t) (eit_version t mod 32) (eit_pnr t) (eit_tsid t) (eit_onid t) (map fit_event (eit_items t)).
Definition fit_tot (t : tot) : tot := mkTot (tot_time t) (fit_loop (tot_descs t)).

(** what is not folded into a field: decimal numbers, the field beside one, dates, codes of other than three bytes *)
Definition digits (d : desc) : Prop :=
  match d with
  | D0A items => Forall (fun i => length (text (d0A_code i)) = 3%nat) items
  | D43 d => d43_freq d < 10 ^ 9 /\ d43_orbital d < 60000 /\ d43_rate d < 10 ^ 6 /\ d43_fec d < 2 ^ 4
  | D44 d => d44_rate d < 10 ^ 6 /\ d44_fec d < 2 ^ 4
  | D4D d => length (text (d4D_lang d)) = 3%nat
  | D4E d => length (text (d4E_lang d)) = 3%nat
  | D58 items => Forall (fun i => length (text (d58_code i)) = 3%nat /\ d58_time i < MJD_END) items
  | _ => True
  end.
(** a loop of descriptors that fit their lengths *)
Definition loop_sized (ds : list desc) : Prop :=
  Forall (fun d => digits d /\ (length (body d) < 256)%nat /\ no_items d) ds /\ (length (wire ds) < N.to_nat 4096)%nat.
