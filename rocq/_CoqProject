-Q theories Verif
theories/Conformance.v
theories/Facts.v
theories/Facts2.v
theories/Layout.v
theories/M_access.v
theories/M_bytes.v
theories/M_carry.v
theories/M_cascade.v
theories/M_cbr.v
theories/M_chain.v
theories/M_clone.v
theories/M_consts.v
theories/M_count.v
theories/M_crc.v
theories/M_debug.v
theories/M_desc.v
theories/M_drive.v
theories/M_due.v
theories/M_from.v
theories/M_iso.v
theories/M_layout.v
theories/M_measure.v
theories/M_move.v
theories/M_multi.v
theories/M_pes.v
theories/M_play.v
theories/M_psi.v
theories/M_reader.v
theories/M_recv.v
theories/M_remux.v
theories/M_restamp.v
theories/M_show.v
theories/M_showr.v
theories/M_shows.v
theories/M_system.v
theories/M_tables.v
theories/M_text.v
theories/M_textdata.v
theories/M_tower.v
theories/M_ts.v
theories/M_tune.v
theories/M_utils.v
theories/M_watch.v
theories/M_words.v
theories/P_access.v
theories/P_air.v
theories/P_bytes.v
theories/P_callers.v
theories/P_carry.v
theories/P_cascade.v
theories/P_cbr.v
theories/P_chain.v
theories/P_consts.v
theories/P_count.v
theories/P_crc.v
theories/P_damage.v
theories/P_debug.v
theories/P_desc.v
theories/P_desc2.v
theories/P_desc3.v
theories/P_distinct.v
theories/P_double.v
theories/P_due.v
theories/P_eit.v
theories/P_eit2.v
theories/P_eit3.v
theories/P_eit4.v
theories/P_eit5.v
theories/P_few.v
theories/P_forward.v
theories/P_forward2.v
theories/P_forward3.v
theories/P_found.v
theories/P_frame.v
theories/P_framed.v
theories/P_from.v
theories/P_grow.v
theories/P_guide.v
theories/P_hits.v
theories/P_hits2.v
theories/P_iso.v
theories/P_join.v
theories/P_layout.v
theories/P_layout2.v
theories/P_loss.v
theories/P_lossy.v
theories/P_measure.v
theories/P_memory.v
theories/P_move.v
theories/P_multi.v
theories/P_mux.v
theories/P_mux2.v
theories/P_mux3.v
theories/P_noise.v
theories/P_origin.v
theories/P_packed.v
theories/P_pcr.v
theories/P_pcr2.v
theories/P_pes.v
theories/P_play.v
theories/P_profile.v
theories/P_psi.v
theories/P_reader.v
theories/P_relay.v
theories/P_remux.v
theories/P_replay.v
theories/P_restamp.v
theories/P_sect.v
theories/P_sender.v
theories/P_sender2.v
theories/P_sender3.v
theories/P_sender4.v
theories/P_show.v
theories/P_shows.v
theories/P_stops.v
theories/P_sys.v
theories/P_sys2.v
theories/P_tab.v
theories/P_tab2.v
theories/P_tab3.v
theories/P_tab4.v
theories/P_tab5.v
theories/P_tab6.v
theories/P_tab7.v
theories/P_tell.v
theories/P_text.v
theories/P_text2.v
theories/P_text3.v
theories/P_tot.v
theories/P_tot2.v
theories/P_tower.v
theories/P_ts.v
theories/P_tune.v
theories/P_utils.v
theories/P_watch.v
theories/P_wide.v
theories/P_wide2.v
theories/P_words.v
theories/P_words2.v
theories/P_words3.v
theories/Prelude.v
theories/Props_again.v
theories/Props_air.v
theories/Props_callers.v
theories/Props_carry.v
theories/Props_cascade.v
theories/Props_cbr.v
theories/Props_chain.v
theories/Props_clone.v
theories/Props_consts.v
theories/Props_count.v
theories/Props_crc.v
theories/Props_damage.v
theories/Props_debug.v
theories/Props_desc.v
theories/Props_distinct.v
theories/Props_double.v
theories/Props_due.v
theories/Props_eit.v
theories/Props_few.v
theories/Props_forward.v
theories/Props_found.v
theories/Props_frame.v
theories/Props_framed.v
theories/Props_from.v
theories/Props_grow.v
theories/Props_guide.v
theories/Props_hits.v
theories/Props_iso.v
theories/Props_join.v
theories/Props_layout.v
theories/Props_loss.v
theories/Props_lossy.v
theories/Props_measure.v
theories/Props_memory.v
theories/Props_move.v
theories/Props_multi.v
theories/Props_noise.v
theories/Props_origin.v
theories/Props_packed.v
theories/Props_play.v
theories/Props_profile.v
theories/Props_psi.v
theories/Props_reader.v
theories/Props_relay.v
theories/Props_remux.v
theories/Props_replay.v
theories/Props_restamp.v
theories/Props_sections.v
theories/Props_sender.v
theories/Props_show.v
theories/Props_showr.v
theories/Props_shows.v
theories/Props_stops.v
theories/Props_system.v
theories/Props_tables.v
theories/Props_tell.v
theories/Props_text.v
theories/Props_tower.v
theories/Props_ts.v
theories/Props_tune.v
theories/Props_utils.v
theories/Props_watch.v
theories/Props_wide.v
theories/Props_words.v
theories/S_air.v
theories/S_carry.v
theories/S_cascade.v
theories/S_cbr.v
theories/S_consts.v
theories/S_count.v
theories/S_crc.v
theories/S_damage.v
theories/S_debug.v
theories/S_desc.v
theories/S_distinct.v
theories/S_double.v
theories/S_due.v
theories/S_few.v
theories/S_forward.v
theories/S_found.v
theories/S_framed.v
theories/S_grow.v
theories/S_hits.v
theories/S_iso.v
theories/S_join.v
theories/S_layout.v
theories/S_loss.v
theories/S_lossy.v
theories/S_measure.v
theories/S_memory.v
theories/S_multi.v
theories/S_noise.v
theories/S_origin.v
theories/S_packed.v
theories/S_play.v
theories/S_profile.v
theories/S_psi.v
theories/S_reader.v
theories/S_relay.v
theories/S_remux.v
theories/S_restamp.v
theories/S_sender.v
theories/S_show.v
theories/S_shows.v
theories/S_stops.v
theories/S_system.v
theories/S_tables.v
theories/S_tell.v
theories/S_text.v
theories/S_textdata.v
theories/S_ts.v
theories/S_tune.v
theories/S_utils.v
theories/S_watch.v
theories/S_wide.v
theories/S_words.v
theories/T_data.v
theories/T_iso.v
theories/W_crc.v
theories/W_desc.v
theories/W_desc2.v
theories/W_eit.v
theories/W_psi.v
theories/W_remux.v
theories/W_sys.v
theories/W_tables.v
theories/W_ts.v
theories/W_utils.v
