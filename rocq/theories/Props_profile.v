(** Property theorems C86: the two build profiles. Specification: S_profile. *)
From Verif Require Import Prelude Layout S_ts S_utils S_crc S_psi M_bytes M_ts M_pes M_utils M_text M_desc S_desc M_crc M_psi M_tables S_tables Props_tables M_from M_debug M_cbr M_consts M_reader
  S_reader M_drive M_recv M_system S_system Props_system M_tune M_measure M_remux M_restamp S_profile.
From Verif Require P_profile.

(** * C86 *)
(** BCD, dates and packed bits *)
Theorem C86_numbers :
  (forall v, alike (fun m => u8_from_bcd m v)) /\
  (forall v, alike (fun m => u8_to_bcd m v)) /\
  (forall v, alike (fun m => u16_from_bcd m v)) /\
  (forall v, alike (fun m => u16_to_bcd m v)) /\
  (forall v, alike (fun m => u32_from_bcd m v)) /\
  (forall v, alike (fun m => u32_to_bcd m v)) /\
  (forall v, alike (fun m => u16_from_bcd_time m v)) /\
  (forall v, alike (fun m => u16_to_bcd_time m v)) /\
  (forall v, alike (fun m => u32_from_bcd_time m v)) /\
  (forall v, alike (fun m => u32_to_bcd_time m v)) /\
  (forall v, alike (fun m => from_mjd m v)) /\
  (forall v, alike (fun m => to_mjd m v)) /\
  (forall w s l, alike (fun m => set_bits m w s l)).
Proof.
  split; [exact P_profile.ag_u8_from_bcd|].
  split; [exact P_profile.ag_u8_to_bcd|].
  split; [exact P_profile.ag_u16_from_bcd|].
  split; [exact P_profile.ag_u16_to_bcd|].
  split; [exact P_profile.ag_u32_from_bcd|].
  split; [exact P_profile.ag_u32_to_bcd|].
  split; [exact P_profile.ag_u16_from_bcd_time|].
  split; [exact P_profile.ag_u16_to_bcd_time|].
  split; [exact P_profile.ag_u32_from_bcd_time|].
  split; [exact P_profile.ag_u32_to_bcd_time|].
  split; [exact P_profile.ag_from_mjd|].
  split; [exact P_profile.ag_to_mjd|].
  exact P_profile.ag_set_bits.
Qed.
Print Assumptions C86_numbers.
(** packets, clocks and PES headers *)
Theorem C86_packets :
  (forall p, alike (fun m => get_payload_offset m p)) /\
  (forall p v, alike (fun m => set_pid m p v)) /\
  (forall p v, alike (fun m => set_cc m p v)) /\
  (forall p, alike (fun m => get_pcr m p)) /\
  (forall a b, alike (fun m => pcr_delta m a b)) /\
  (forall a b c d, alike (fun m => pcr_to_stc m a b c d)) /\
  (forall a b, alike (fun m => pcr_jitter_ns m a b)) /\
  (forall a b, alike (fun m => pcr_delta_bitrate m a b)) /\
  (forall p, alike (fun m => pes_get_length m p)) /\
  (forall p, alike (fun m => pes_get_payload_offset m p)) /\
  (forall a b, alike (fun m => pts_delta m a b)) /\
  (forall alt p, alike (fun m => packet_text m alt p)) /\
  (forall alt p, alike (fun m => adaptation_text m alt p)).
Proof.
  split; [exact P_profile.ag_get_payload_offset|].
  split; [exact P_profile.ag_set_pid|].
  split; [exact P_profile.ag_set_cc|].
  split; [exact P_profile.ag_get_pcr|].
  split; [exact P_profile.ag_pcr_delta|].
  split; [exact P_profile.ag_pcr_to_stc|].
  split; [exact P_profile.ag_pcr_jitter_ns|].
  split; [exact P_profile.ag_pcr_delta_bitrate|].
  split; [exact P_profile.ag_pes_get_length|].
  split; [exact P_profile.ag_pes_get_payload_offset|].
  split; [exact P_profile.ag_pts_delta|].
  split; [exact P_profile.ag_packet_text|].
  exact P_profile.ag_adaptation_text.
Qed.
Print Assumptions C86_packets.
Theorem C86_texts :
  (forall t cp, alike (fun m => dvb_from_str m t cp)) /\
  (forall t b, alike (fun m => dvb_assemble m t b)) /\
  (forall t b, alike (fun m => dvb_assemble_sized m t b)) /\
  (forall n t s, alike (fun m => dvb_split n m t s)) /\
  (forall b, alike (fun m => dvb_from m b)).
Proof.
  split; [exact P_profile.ag_dvb_from_str|].
  split; [exact P_profile.ag_dvb_assemble|].
  split; [exact P_profile.ag_dvb_assemble_sized|].
  split; [exact P_profile.ag_dvb_split|].
  exact P_profile.ag_dvb_from.
Qed.
Print Assumptions C86_texts.
Theorem C86_descriptors :
  (forall ds b, alike (fun m => descs_parse m ds b)) /\
  (forall ds b, alike (fun m => descs_assemble m ds b)).
Proof.
  split; [exact P_profile.ag_descs_parse|].
  exact P_profile.ag_descs_assemble.
Qed.
Print Assumptions C86_descriptors.
Theorem C86_sections :
  (forall t n v, alike (fun m => psi_new m t n v)) /\
  (forall p ts, alike (fun m => psi_mux m p ts)) /\
  (forall p dst, alike (fun m => psi_demux m p dst)).
Proof.
  split; [exact P_profile.ag_psi_new|].
  split; [exact P_profile.ag_psi_mux|].
  exact P_profile.ag_psi_demux.
Qed.
Print Assumptions C86_sections.
(** reading tables from sections *)
Theorem C86_read :
  (forall t p, alike (fun m => pat_parse m t p)) /\
  (forall t p, alike (fun m => pmt_parse m t p)) /\
  (forall t p, alike (fun m => nit_parse m t p)) /\
  (forall t p, alike (fun m => sdt_parse m t p)) /\
  (forall t p, alike (fun m => eit_parse m t p)) /\
  (forall t p, alike (fun m => tdt_parse m t p)) /\
  (forall t p, alike (fun m => tot_parse m t p)).
Proof.
  split; [exact P_profile.ag_pat_parse|].
  split; [exact P_profile.ag_pmt_parse|].
  split; [exact P_profile.ag_nit_parse|].
  split; [exact P_profile.ag_sdt_parse|].
  split; [exact P_profile.ag_eit_parse|].
  split; [exact P_profile.ag_tdt_parse|].
  exact P_profile.ag_tot_parse.
Qed.
Print Assumptions C86_read.
(** writing them as packets *)
Theorem C86_sent :
  (forall t pid cc dst, alike (fun m => pat_demux m t pid cc dst)) /\
  (forall t pid cc dst, alike (fun m => pmt_demux m t pid cc dst)) /\
  (forall t pid cc dst, alike (fun m => nit_demux m t pid cc dst)) /\
  (forall t pid cc dst, alike (fun m => sdt_demux m t pid cc dst)) /\
  (forall t pid cc dst, alike (fun m => eit_demux m t pid cc dst)) /\
  (forall t pid cc dst, alike (fun m => tdt_demux m t pid cc dst)) /\
  (forall t pid cc dst, alike (fun m => tot_demux m t pid cc dst)).
Proof.
  split; [exact P_profile.ag_pat_demux|].
  split; [exact P_profile.ag_pmt_demux|].
  split; [exact P_profile.ag_nit_demux|].
  split; [exact P_profile.ag_sdt_demux|].
  split; [exact P_profile.ag_eit_demux|].
  split; [exact P_profile.ag_tdt_demux|].
  exact P_profile.ag_tot_demux.
Qed.
Print Assumptions C86_sent.
(** whole streams: tables followed through packets and bytes, a program tuned to, its clock measured, packets moved, counted and stamped anew *)
Theorem C86_streams :
  (forall p l, alike (fun m => mux_all m p l)) /\
  (forall p t l, alike (fun m => receive m (pat_parse m) p t l)) /\
  (forall p t l, alike (fun m => receive m (pmt_parse m) p t l)) /\
  (forall p t l, alike (fun m => receive m (nit_parse m) p t l)) /\
  (forall p t l, alike (fun m => receive m (sdt_parse m) p t l)) /\
  (forall p t l, alike (fun m => receive m (eit_parse m) p t l)) /\
  (forall p t l, alike (fun m => receive m (tdt_parse m) p t l)) /\
  (forall p t l, alike (fun m => receive m (tot_parse m) p t l)) /\
  (forall n w s b p t, alike (fun m => follow n m (pat_parse m) w s b p t)) /\
  (forall n w s b p t, alike (fun m => follow n m (pmt_parse m) w s b p t)) /\
  (forall n w s b p t, alike (fun m => follow n m (nit_parse m) w s b p t)) /\
  (forall n w s b p t, alike (fun m => follow n m (sdt_parse m) w s b p t)) /\
  (forall n w s b p t, alike (fun m => follow n m (eit_parse m) w s b p t)) /\
  (forall n w s b p t, alike (fun m => follow n m (tdt_parse m) w s b p t)) /\
  (forall n w s b p t, alike (fun m => follow n m (tot_parse m) w s b p t)) /\
  (forall w u l, alike (fun m => tune m w u l)) /\
  (forall a b c l, alike (fun m => measure m a b c l)) /\
  (forall route l, alike (fun m => remap m route l)) /\
  (forall cc l, alike (fun m => renumber m cc l)) /\
  (forall k l, alike (fun m => restamp m k l)) /\
  (forall pid n l, alike (fun m => observe m pid n l)).
Proof.
  split; [exact P_profile.ag_mux_all|].
  split; [intros p t l; exact (P_profile.ag_receive _ _ p t l P_profile.ag_pat_parse)|].
  split; [intros p t l; exact (P_profile.ag_receive _ _ p t l P_profile.ag_pmt_parse)|].
  split; [intros p t l; exact (P_profile.ag_receive _ _ p t l P_profile.ag_nit_parse)|].
  split; [intros p t l; exact (P_profile.ag_receive _ _ p t l P_profile.ag_sdt_parse)|].
  split; [intros p t l; exact (P_profile.ag_receive _ _ p t l P_profile.ag_eit_parse)|].
  split; [intros p t l; exact (P_profile.ag_receive _ _ p t l P_profile.ag_tdt_parse)|].
  split; [intros p t l; exact (P_profile.ag_receive _ _ p t l P_profile.ag_tot_parse)|].
  split; [intros n w s b p t; exact (P_profile.ag_follow _ _ n w s b p t P_profile.ag_pat_parse)|].
  split; [intros n w s b p t; exact (P_profile.ag_follow _ _ n w s b p t P_profile.ag_pmt_parse)|].
  split; [intros n w s b p t; exact (P_profile.ag_follow _ _ n w s b p t P_profile.ag_nit_parse)|].
  split; [intros n w s b p t; exact (P_profile.ag_follow _ _ n w s b p t P_profile.ag_sdt_parse)|].
  split; [intros n w s b p t; exact (P_profile.ag_follow _ _ n w s b p t P_profile.ag_eit_parse)|].
  split; [intros n w s b p t; exact (P_profile.ag_follow _ _ n w s b p t P_profile.ag_tdt_parse)|].
  split; [intros n w s b p t; exact (P_profile.ag_follow _ _ n w s b p t P_profile.ag_tot_parse)|].
  split; [exact P_profile.ag_tune|].
  split; [exact P_profile.ag_measure|].
  split; [exact P_profile.ag_remap|].
  split; [exact P_profile.ag_renumber|].
  split; [exact P_profile.ag_restamp|].
  exact P_profile.ag_observe.
Qed.
Print Assumptions C86_streams.
(** the unfinished constant bit rate reader, around any source *)
Theorem C86_cbr : forall S (rd : S -> list N -> res (S * list N * io)) c l, alike (fun m => cbr_reads rd m c l).
Proof. intros S rd c l. exact (P_profile.ag_cbr_reads rd c l). Qed.
Print Assumptions C86_cbr.
(** so what aborts in a release build aborts in a debug build *)
Theorem C86_panics {A} (f : mode -> res A) : alike f -> (f Release = Panic -> f Debug = Panic) /\ (forall x, f Debug = Ok x -> f Release = Ok x).
Proof. intros [E|E]; split; intros; rewrite ?E in *; try congruence; reflexivity. Qed.
Print Assumptions C86_panics.
(** but not the other way round: a packet that is not allowed (adaptation field length 251), in which a debug build
    aborts and a release build finds a PAT behind byte 71 = 0x47, its sync byte taken for a pointer_field *)
Definition odd_packet : list N := [0x47; 0x40; 0x00; 0x30; 251] ++ repeat 255 67 ++ one_program ++ repeat 255 100.
Theorem C86_same_refuted : exists ts, length ts = 188%nat /\ bytes ts /\ forall t,
  receive Debug (pat_parse Debug) psi_default t [ts] = Panic /\
  exists q u, receive Release (pat_parse Release) psi_default t [ts] = Ok (q, u) /\ pat_items u = pat_items t ++ [mkPatI 100 256].
Proof.
  exists odd_packet. split; [vm_compute; reflexivity|]. split; [vm_compute; repeat constructor|]. intros t. split; [vm_compute; reflexivity|].
  eexists. eexists. split; [vm_compute; reflexivity|]. destruct t as [v i l]. cbn. reflexivity.
Qed.
Print Assumptions C86_same_refuted.
(** a stream on which both builds agree, and the value *)
Example C86_ex : exists r, (forall m, receive m (pat_parse m) psi_default pat_default (map encode [with_section one_program; no_payload]) = Ok r) /\
  pat_items (snd r) = [mkPatI 100 256; mkPatI 100 256].
Proof. eexists. split; [intros []; vm_compute; reflexivity|]. reflexivity. Qed.
