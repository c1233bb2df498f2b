(** Proofs for C86: the build profiles. *)
From Verif Require Import Prelude M_bytes M_ts M_pes M_utils M_text M_desc M_crc M_psi M_tables M_from M_debug M_cbr M_consts M_reader
  M_drive M_recv M_system M_tune M_measure M_remux M_restamp S_profile.

(** the same on two results *)
Definition ag {A} (a b : res A) : Prop := a = Panic \/ a = b.
Lemma ag_refl {A} (a : res A) : ag a a. Proof. right. reflexivity. Qed.
Lemma ag_panic {A} (a : res A) : ag Panic a. Proof. left. reflexivity. Qed.
Lemma ag_bind {A B} (a b : res A) (f g : A -> res B) : ag a b -> (forall x, ag (f x) (g x)) -> ag (bind a f) (bind b g).
Proof. intros [E|E] H; subst a; [left; reflexivity|]. destruct b; [apply H|apply ag_refl|apply ag_refl]. Qed.
Lemma ag_dassert b : ag (dassert Debug b) (dassert Release b). Proof. destruct b; [apply ag_refl|apply ag_panic]. Qed.
Lemma ag_addw w a b : ag (addw w Debug a b) (addw w Release a b). Proof. unfold addw. destruct (a + b <? w); [apply ag_refl|apply ag_panic]. Qed.
Lemma ag_subw w a b : ag (subw w Debug a b) (subw w Release a b). Proof. unfold subw. destruct (b <=? a); [apply ag_refl|apply ag_panic]. Qed.
Lemma ag_mulw w a b : ag (mulw w Debug a b) (mulw w Release a b). Proof. unfold mulw. destruct (a * b <? w); [apply ag_refl|apply ag_panic]. Qed.
Lemma ag_i64 z : ag (i64_op Debug z) (i64_op Release z). Proof. unfold i64_op. destruct (_ && _)%Z; [apply ag_refl|apply ag_panic]. Qed.
Lemma ag_shl w v s : ag (shl_i32 Debug w v s) (shl_i32 Release w v s). Proof. unfold shl_i32. destruct (_ && _)%Z; [apply ag_refl|apply ag_panic]. Qed.
Lemma ag_on_from {A} (l : list A) n f g : (forall x, ag (f x) (g x)) -> ag (on_from l n f) (on_from l n g).
Proof. intros H. unfold on_from. apply ag_bind; [apply ag_refl|]. intros x. apply ag_bind; [apply H|]. intros y. apply ag_refl. Qed.

Create HintDb prof discriminated.
#[local] Hint Constants Opaque : prof.
#[local] Hint Resolve ag_dassert ag_addw ag_subw ag_mulw ag_i64 ag_shl : prof.
Ltac ag1 :=
  match goal with
  | |- ag ?a ?b => constr_eq a b; apply ag_refl
  | |- ag (bind _ _) (bind _ _) => apply ag_bind; [|intros ?]
  | |- ag (on_from _ _ _) (on_from _ _ _) => apply ag_on_from; intros ?
  | |- ag _ _ => solve [auto 2 with prof nocore]
  | |- ag (match ?x with _ => _ end) (match ?y with _ => _ end) => constr_eq x y; destruct x
  end.
Ltac ags := cbv zeta; repeat ag1.
Lemma ag_u8_from_bcd a : ag (u8_from_bcd Debug a) (u8_from_bcd Release a). Proof. unfold u8_from_bcd. ags. Qed.
#[local] Hint Resolve ag_u8_from_bcd : prof.
Lemma ag_u8_to_bcd a : ag (u8_to_bcd Debug a) (u8_to_bcd Release a). Proof. unfold u8_to_bcd. ags. Qed.
#[local] Hint Resolve ag_u8_to_bcd : prof.
Lemma ag_u16_from_bcd a : ag (u16_from_bcd Debug a) (u16_from_bcd Release a). Proof. unfold u16_from_bcd. ags. Qed.
#[local] Hint Resolve ag_u16_from_bcd : prof.
Lemma ag_u16_to_bcd a : ag (u16_to_bcd Debug a) (u16_to_bcd Release a). Proof. unfold u16_to_bcd. ags. Qed.
#[local] Hint Resolve ag_u16_to_bcd : prof.
Lemma ag_u32_from_bcd a : ag (u32_from_bcd Debug a) (u32_from_bcd Release a). Proof. unfold u32_from_bcd. ags. Qed.
#[local] Hint Resolve ag_u32_from_bcd : prof.
Lemma ag_u32_to_bcd a : ag (u32_to_bcd Debug a) (u32_to_bcd Release a). Proof. unfold u32_to_bcd. ags. Qed.
#[local] Hint Resolve ag_u32_to_bcd : prof.
Lemma ag_u16_from_bcd_time a : ag (u16_from_bcd_time Debug a) (u16_from_bcd_time Release a). Proof. unfold u16_from_bcd_time. ags. Qed.
#[local] Hint Resolve ag_u16_from_bcd_time : prof.
Lemma ag_u16_to_bcd_time a : ag (u16_to_bcd_time Debug a) (u16_to_bcd_time Release a). Proof. unfold u16_to_bcd_time. ags. Qed.
#[local] Hint Resolve ag_u16_to_bcd_time : prof.
Lemma ag_u32_from_bcd_time a : ag (u32_from_bcd_time Debug a) (u32_from_bcd_time Release a). Proof. unfold u32_from_bcd_time. ags. Qed.
#[local] Hint Resolve ag_u32_from_bcd_time : prof.
Lemma ag_u32_to_bcd_time a : ag (u32_to_bcd_time Debug a) (u32_to_bcd_time Release a). Proof. unfold u32_to_bcd_time. ags. Qed.
#[local] Hint Resolve ag_u32_to_bcd_time : prof.
Lemma ag_from_mjd a : ag (from_mjd Debug a) (from_mjd Release a). Proof. unfold from_mjd. ags. Qed.
#[local] Hint Resolve ag_from_mjd : prof.
Lemma ag_to_mjd a : ag (to_mjd Debug a) (to_mjd Release a). Proof. unfold to_mjd. ags. Qed.
#[local] Hint Resolve ag_to_mjd : prof.
Lemma ag_get_payload_offset a : ag (get_payload_offset Debug a) (get_payload_offset Release a). Proof. unfold get_payload_offset. ags. Qed.
#[local] Hint Resolve ag_get_payload_offset : prof.
Lemma ag_set_pid a b : ag (set_pid Debug a b) (set_pid Release a b). Proof. unfold set_pid. ags. Qed.
#[local] Hint Resolve ag_set_pid : prof.
Lemma ag_set_cc a b : ag (set_cc Debug a b) (set_cc Release a b). Proof. unfold set_cc. ags. Qed.
#[local] Hint Resolve ag_set_cc : prof.
Lemma ag_get_pcr a : ag (get_pcr Debug a) (get_pcr Release a). Proof. unfold get_pcr. ags. Qed.
#[local] Hint Resolve ag_get_pcr : prof.
Lemma ag_pcr_delta a b : ag (pcr_delta Debug a b) (pcr_delta Release a b). Proof. unfold pcr_delta. ags. Qed.
#[local] Hint Resolve ag_pcr_delta : prof.
Lemma ag_pcr_to_stc a b c d : ag (pcr_to_stc Debug a b c d) (pcr_to_stc Release a b c d). Proof. unfold pcr_to_stc. ags. Qed.
#[local] Hint Resolve ag_pcr_to_stc : prof.
Lemma ag_pcr_jitter_ns a b : ag (pcr_jitter_ns Debug a b) (pcr_jitter_ns Release a b). Proof. unfold pcr_jitter_ns. ags. Qed.
#[local] Hint Resolve ag_pcr_jitter_ns : prof.
Lemma ag_pcr_delta_bitrate a b : ag (pcr_delta_bitrate Debug a b) (pcr_delta_bitrate Release a b). Proof. unfold pcr_delta_bitrate. ags. Qed.
#[local] Hint Resolve ag_pcr_delta_bitrate : prof.
Lemma ag_pes_get_length a : ag (pes_get_length Debug a) (pes_get_length Release a). Proof. unfold pes_get_length. ags. Qed.
#[local] Hint Resolve ag_pes_get_length : prof.
Lemma ag_pes_get_payload_offset a : ag (pes_get_payload_offset Debug a) (pes_get_payload_offset Release a). Proof. unfold pes_get_payload_offset. ags. Qed.
#[local] Hint Resolve ag_pes_get_payload_offset : prof.
Lemma ag_pts_delta a b : ag (pts_delta Debug a b) (pts_delta Release a b). Proof. unfold pts_delta. ags. Qed.
#[local] Hint Resolve ag_pts_delta : prof.
Lemma ag_dvb_bytes a : ag (dvb_bytes Debug a) (dvb_bytes Release a). Proof. unfold dvb_bytes. ags. Qed.
#[local] Hint Resolve ag_dvb_bytes : prof.
Lemma ag_dvb_assemble a b : ag (dvb_assemble Debug a b) (dvb_assemble Release a b). Proof. unfold dvb_assemble. ags. Qed.
#[local] Hint Resolve ag_dvb_assemble : prof.
Lemma ag_dvb_assemble_sized a b : ag (dvb_assemble_sized Debug a b) (dvb_assemble_sized Release a b). Proof. unfold dvb_assemble_sized. ags. Qed.
#[local] Hint Resolve ag_dvb_assemble_sized : prof.
Lemma ag_dvb_from a : ag (dvb_from Debug a) (dvb_from Release a). Proof. unfold dvb_from. ags. Qed.
#[local] Hint Resolve ag_dvb_from : prof.

Lemma ag_encode_loop t l : ag (encode_loop Debug t l) (encode_loop Release t l).
Proof. induction l as [|x l IH]; cbn [encode_loop]; ags. Qed.
#[local] Hint Resolve ag_encode_loop : prof.
Lemma ag_dvb_from_str a b : ag (dvb_from_str Debug a b) (dvb_from_str Release a b). Proof. unfold dvb_from_str. ags. Qed.
#[local] Hint Resolve ag_dvb_from_str : prof.
Lemma ag_back_off n d x : ag (back_off Debug n d x) (back_off Release n d x).
Proof. revert x. induction n as [|? IH]; intros x; cbn [back_off]; ags. Qed.
#[local] Hint Resolve ag_back_off : prof.
Lemma ag_split_loop n t s k : ag (split_loop n Debug t s k) (split_loop n Release t s k).
Proof. revert k. induction n as [|? IH]; intros k; cbn [split_loop]; ags. Qed.
#[local] Hint Resolve ag_split_loop : prof.
Lemma ag_dvb_split n t s : ag (dvb_split n Debug t s) (dvb_split n Release t s). Proof. unfold dvb_split. ags. Qed.
#[local] Hint Resolve ag_dvb_split : prof.
Lemma ag_arm {A} c (f g : list N -> res A) k s : (forall x, ag (f x) (g x)) -> ag (arm c f k s) (arm c g k s). Proof. intros H. unfold arm. ags. Qed.
Lemma ag_x0A_loop n s k : ag (x0A_loop n Debug s k) (x0A_loop n Release s k).
Proof. revert k. induction n as [|? IH]; intros k; cbn [x0A_loop]; ags. Qed.
#[local] Hint Resolve ag_x0A_loop : prof.
Lemma ag_x58_loop n s k : ag (x58_loop n Debug s k) (x58_loop n Release s k).
Proof. revert k. induction n as [|? IH]; intros k; cbn [x58_loop]; ags. Qed.
#[local] Hint Resolve ag_x58_loop : prof.
Lemma ag_x4E_loop n s i k : ag (x4E_loop n Debug s i k) (x4E_loop n Release s i k).
Proof. revert i. induction n as [|? IH]; intros i; cbn [x4E_loop]; ags. Qed.
#[local] Hint Resolve ag_x4E_loop : prof.
Lemma ag_x0A_parse a : ag (x0A_parse Debug a) (x0A_parse Release a). Proof. unfold x0A_parse. ags. Qed.
#[local] Hint Resolve ag_x0A_parse : prof.
Lemma ag_x40_parse a : ag (x40_parse Debug a) (x40_parse Release a). Proof. unfold x40_parse. ags. Qed.
#[local] Hint Resolve ag_x40_parse : prof.
Lemma ag_x43_parse a : ag (x43_parse Debug a) (x43_parse Release a). Proof. unfold x43_parse. ags. Qed.
#[local] Hint Resolve ag_x43_parse : prof.
Lemma ag_x44_parse a : ag (x44_parse Debug a) (x44_parse Release a). Proof. unfold x44_parse. ags. Qed.
#[local] Hint Resolve ag_x44_parse : prof.
Lemma ag_x48_parse a : ag (x48_parse Debug a) (x48_parse Release a). Proof. unfold x48_parse. ags. Qed.
#[local] Hint Resolve ag_x48_parse : prof.
Lemma ag_x4D_parse a : ag (x4D_parse Debug a) (x4D_parse Release a). Proof. unfold x4D_parse. ags. Qed.
#[local] Hint Resolve ag_x4D_parse : prof.
Lemma ag_x4E_parse a : ag (x4E_parse Debug a) (x4E_parse Release a). Proof. unfold x4E_parse. ags. Qed.
#[local] Hint Resolve ag_x4E_parse : prof.
Lemma ag_x58_parse a : ag (x58_parse Debug a) (x58_parse Release a). Proof. unfold x58_parse. ags. Qed.
#[local] Hint Resolve ag_x58_parse : prof.
Lemma ag_x5A_parse a : ag (x5A_parse Debug a) (x5A_parse Release a). Proof. unfold x5A_parse. ags. Qed.
#[local] Hint Resolve ag_x5A_parse : prof.
Lemma ag_desc_parse s : ag (desc_parse Debug s) (desc_parse Release s).
Proof. unfold desc_parse. ags; apply ag_arm; intros y; ags. Qed.
#[local] Hint Resolve ag_desc_parse : prof.
Lemma ag_x0A_items l b : ag (x0A_items Debug l b) (x0A_items Release l b).
Proof. revert b. induction l as [|x l IH]; intros b; cbn [x0A_items]; ags. Qed.
#[local] Hint Resolve ag_x0A_items : prof.
Lemma ag_x58_items l b : ag (x58_items Debug l b) (x58_items Release l b).
Proof. revert b. induction l as [|x l IH]; intros b; cbn [x58_items]; ags. Qed.
#[local] Hint Resolve ag_x58_items : prof.
Lemma ag_x4E_items l b : ag (x4E_items Debug l b) (x4E_items Release l b).
Proof. revert b. induction l as [|[x y] l IH]; intros b; cbn [x4E_items]; ags. Qed.
#[local] Hint Resolve ag_x4E_items : prof.
Lemma ag_x0A_assemble a b : ag (x0A_assemble Debug a b) (x0A_assemble Release a b). Proof. unfold x0A_assemble. ags. Qed.
#[local] Hint Resolve ag_x0A_assemble : prof.
Lemma ag_x40_assemble a b : ag (x40_assemble Debug a b) (x40_assemble Release a b). Proof. unfold x40_assemble. ags. Qed.
#[local] Hint Resolve ag_x40_assemble : prof.
Lemma ag_x43_assemble a b : ag (x43_assemble Debug a b) (x43_assemble Release a b). Proof. unfold x43_assemble. ags. Qed.
#[local] Hint Resolve ag_x43_assemble : prof.
Lemma ag_x44_assemble a b : ag (x44_assemble Debug a b) (x44_assemble Release a b). Proof. unfold x44_assemble. ags. Qed.
#[local] Hint Resolve ag_x44_assemble : prof.
Lemma ag_x48_assemble a b : ag (x48_assemble Debug a b) (x48_assemble Release a b). Proof. unfold x48_assemble. ags. Qed.
#[local] Hint Resolve ag_x48_assemble : prof.
Lemma ag_x4D_assemble a b : ag (x4D_assemble Debug a b) (x4D_assemble Release a b). Proof. unfold x4D_assemble. ags. Qed.
#[local] Hint Resolve ag_x4D_assemble : prof.
Lemma ag_x4E_assemble a b : ag (x4E_assemble Debug a b) (x4E_assemble Release a b). Proof. unfold x4E_assemble. ags. Qed.
#[local] Hint Resolve ag_x4E_assemble : prof.
Lemma ag_x58_assemble a b : ag (x58_assemble Debug a b) (x58_assemble Release a b). Proof. unfold x58_assemble. ags. Qed.
#[local] Hint Resolve ag_x58_assemble : prof.
Lemma ag_desc_assemble a b : ag (desc_assemble Debug a b) (desc_assemble Release a b). Proof. unfold desc_assemble. ags. Qed.
#[local] Hint Resolve ag_desc_assemble : prof.
Lemma ag_descs_loop n s k ds : ag (descs_loop n Debug s k ds) (descs_loop n Release s k ds).
Proof. revert k ds. induction n as [|? IH]; intros k ds; cbn [descs_loop]; ags. Qed.
#[local] Hint Resolve ag_descs_loop : prof.
Lemma ag_descs_parse a b : ag (descs_parse Debug a b) (descs_parse Release a b). Proof. unfold descs_parse. ags. Qed.
#[local] Hint Resolve ag_descs_parse : prof.
Lemma ag_descs_bytes l b : ag (descs_bytes Debug l b) (descs_bytes Release l b).
Proof. revert b. induction l as [|x l IH]; intros b; cbn [descs_bytes]; ags. Qed.
#[local] Hint Resolve ag_descs_bytes : prof.
Lemma ag_descs_assemble a b : ag (descs_assemble Debug a b) (descs_assemble Release a b). Proof. unfold descs_assemble. ags. Qed.
#[local] Hint Resolve ag_descs_assemble : prof.
Lemma ag_psi_new a b c : ag (psi_new Debug a b c) (psi_new Release a b c). Proof. unfold psi_new. ags. Qed.
#[local] Hint Resolve ag_psi_new : prof.
Lemma ag_cc_breaks a b : ag (cc_breaks Debug a b) (cc_breaks Release a b). Proof. unfold cc_breaks. ags. Qed.
#[local] Hint Resolve ag_cc_breaks : prof.
Lemma ag_psi_mux a b : ag (psi_mux Debug a b) (psi_mux Release a b). Proof. unfold psi_mux. ags. Qed.
#[local] Hint Resolve ag_psi_mux : prof.
Lemma ag_demux_loop n p c d x y : ag (demux_loop n Debug p c d x y) (demux_loop n Release p c d x y).
Proof. revert c d x y. induction n as [|? IH]; intros c d x y; cbn [demux_loop]; ags. Qed.
#[local] Hint Resolve ag_demux_loop : prof.
Lemma ag_psi_demux a b : ag (psi_demux Debug a b) (psi_demux Release a b). Proof. unfold psi_demux. ags. Qed.
#[local] Hint Resolve ag_psi_demux : prof.
Lemma ag_demux_sections a b n l c d : ag (demux_sections Debug a b n l c d) (demux_sections Release a b n l c d).
Proof. revert n c d. induction l as [|x l IH]; intros n c d; cbn [demux_sections]; ags. Qed.
#[local] Hint Resolve ag_demux_sections : prof.
Lemma ag_demux_table a b c d : ag (demux_table Debug a b c d) (demux_table Release a b c d). Proof. unfold demux_table. ags. Qed.
#[local] Hint Resolve ag_demux_table : prof.
Lemma ag_items_loop {A} n h (f g : list N -> res A) s k items : (forall x, ag (f x) (g x)) -> ag (items_loop n h f s k items) (items_loop n h g s k items).
Proof. intros H. revert k items. induction n as [|n IH]; intros k items; cbn [items_loop]; ags. Qed.
Lemma ag_parse_items {A} h (f g : list N -> res A) s items : (forall x, ag (f x) (g x)) -> ag (parse_items h f s items) (parse_items h g s items).
Proof. intros H. unfold parse_items. apply ag_items_loop. exact H. Qed.
Lemma ag_pack {A} n size (f g : A -> list N -> res (list N)) a b items done cur : (forall x y, ag (f x y) (g x y)) -> ag a b -> ag (pack n size f a items done cur) (pack n size g b items done cur).
Proof. intros H E. revert done cur. induction items as [|i items IH]; intros done cur; cbn [pack]; ags. Qed.
Lemma ag_pat_parse a b : ag (pat_parse Debug a b) (pat_parse Release a b). Proof. unfold pat_parse. ags. Qed.
#[local] Hint Resolve ag_pat_parse : prof.
Lemma ag_pat_sections a : ag (pat_sections Debug a) (pat_sections Release a). Proof. unfold pat_sections. ags. Qed.
#[local] Hint Resolve ag_pat_sections : prof.
Lemma ag_pat_demux a b c d : ag (pat_demux Debug a b c d) (pat_demux Release a b c d). Proof. unfold pat_demux. ags. Qed.
#[local] Hint Resolve ag_pat_demux : prof.
Lemma ag_pmt_item_parse a : ag (pmt_item_parse Debug a) (pmt_item_parse Release a). Proof. unfold pmt_item_parse. ags. Qed.
#[local] Hint Resolve ag_pmt_item_parse : prof.
Lemma ag_pmt_item_assemble a b : ag (pmt_item_assemble Debug a b) (pmt_item_assemble Release a b). Proof. unfold pmt_item_assemble. ags. Qed.
#[local] Hint Resolve ag_pmt_item_assemble : prof.
Lemma ag_pmt_parse a b : ag (pmt_parse Debug a b) (pmt_parse Release a b). Proof. unfold pmt_parse. ags; apply ag_parse_items; intros z; ags. Qed.
#[local] Hint Resolve ag_pmt_parse : prof.
Lemma ag_pmt_init a b : ag (pmt_init Debug a b) (pmt_init Release a b). Proof. unfold pmt_init. ags. Qed.
#[local] Hint Resolve ag_pmt_init : prof.
Lemma ag_pmt_sections a : ag (pmt_sections Debug a) (pmt_sections Release a). Proof. unfold pmt_sections. ags; apply ag_pack; intros; ags. Qed.
#[local] Hint Resolve ag_pmt_sections : prof.
Lemma ag_pmt_demux a b c d : ag (pmt_demux Debug a b c d) (pmt_demux Release a b c d). Proof. unfold pmt_demux. ags. Qed.
#[local] Hint Resolve ag_pmt_demux : prof.
Lemma ag_nit_item_parse a : ag (nit_item_parse Debug a) (nit_item_parse Release a). Proof. unfold nit_item_parse. ags. Qed.
#[local] Hint Resolve ag_nit_item_parse : prof.
Lemma ag_nit_item_assemble a b : ag (nit_item_assemble Debug a b) (nit_item_assemble Release a b). Proof. unfold nit_item_assemble. ags. Qed.
#[local] Hint Resolve ag_nit_item_assemble : prof.
Lemma ag_nit_parse a b : ag (nit_parse Debug a b) (nit_parse Release a b). Proof. unfold nit_parse. ags; apply ag_parse_items; intros z; ags. Qed.
#[local] Hint Resolve ag_nit_parse : prof.
Lemma ag_nit_init a b : ag (nit_init Debug a b) (nit_init Release a b). Proof. unfold nit_init. ags. Qed.
#[local] Hint Resolve ag_nit_init : prof.
Lemma ag_nit_close a : ag (nit_close Debug a) (nit_close Release a). Proof. unfold nit_close. ags. Qed.
#[local] Hint Resolve ag_nit_close : prof.
Lemma ag_nit_close_all l : ag (nit_close_all Debug l) (nit_close_all Release l).
Proof. induction l as [|x l IH]; cbn [nit_close_all]; ags. Qed.
#[local] Hint Resolve ag_nit_close_all : prof.
Lemma ag_nit_sections a : ag (nit_sections Debug a) (nit_sections Release a). Proof. unfold nit_sections. ags; apply ag_pack; intros; ags. Qed.
#[local] Hint Resolve ag_nit_sections : prof.
Lemma ag_nit_demux a b c d : ag (nit_demux Debug a b c d) (nit_demux Release a b c d). Proof. unfold nit_demux. ags. Qed.
#[local] Hint Resolve ag_nit_demux : prof.
Lemma ag_sdt_item_parse a : ag (sdt_item_parse Debug a) (sdt_item_parse Release a). Proof. unfold sdt_item_parse. ags. Qed.
#[local] Hint Resolve ag_sdt_item_parse : prof.
Lemma ag_sdt_item_assemble a b : ag (sdt_item_assemble Debug a b) (sdt_item_assemble Release a b). Proof. unfold sdt_item_assemble. ags. Qed.
#[local] Hint Resolve ag_sdt_item_assemble : prof.
Lemma ag_sdt_parse a b : ag (sdt_parse Debug a b) (sdt_parse Release a b). Proof. unfold sdt_parse. ags; apply ag_parse_items; intros z; ags. Qed.
#[local] Hint Resolve ag_sdt_parse : prof.
Lemma ag_sdt_init a : ag (sdt_init Debug a) (sdt_init Release a). Proof. unfold sdt_init. ags. Qed.
#[local] Hint Resolve ag_sdt_init : prof.
Lemma ag_sdt_sections a : ag (sdt_sections Debug a) (sdt_sections Release a). Proof. unfold sdt_sections. ags; apply ag_pack; intros; ags. Qed.
#[local] Hint Resolve ag_sdt_sections : prof.
Lemma ag_sdt_demux a b c d : ag (sdt_demux Debug a b c d) (sdt_demux Release a b c d). Proof. unfold sdt_demux. ags. Qed.
#[local] Hint Resolve ag_sdt_demux : prof.
Lemma ag_eit_item_parse a : ag (eit_item_parse Debug a) (eit_item_parse Release a). Proof. unfold eit_item_parse. ags. Qed.
#[local] Hint Resolve ag_eit_item_parse : prof.
Lemma ag_eit_item_assemble a b : ag (eit_item_assemble Debug a b) (eit_item_assemble Release a b). Proof. unfold eit_item_assemble. ags. Qed.
#[local] Hint Resolve ag_eit_item_assemble : prof.
Lemma ag_eit_parse a b : ag (eit_parse Debug a b) (eit_parse Release a b). Proof. unfold eit_parse. ags; apply ag_parse_items; intros z; ags. Qed.
#[local] Hint Resolve ag_eit_parse : prof.
Lemma ag_eit_init a : ag (eit_init Debug a) (eit_init Release a). Proof. unfold eit_init. ags. Qed.
#[local] Hint Resolve ag_eit_init : prof.
Lemma ag_eit_pf t z n l : ag (eit_pf Debug t z n l) (eit_pf Release t z n l).
Proof. revert n. induction l as [|x l IH]; intros n; cbn [eit_pf]; ags. Qed.
#[local] Hint Resolve ag_eit_pf : prof.
Lemma ag_eit_blank n a p x y : ag (eit_blank Debug n a p x y) (eit_blank Release n a p x y).
Proof. revert p x y. induction n as [|? IH]; intros p x y; cbn [eit_blank]; ags. Qed.
#[local] Hint Resolve ag_eit_blank : prof.
Lemma ag_eit_open a b c d : ag (eit_open Debug a b c d) (eit_open Release a b c d). Proof. unfold eit_open. ags. Qed.
#[local] Hint Resolve ag_eit_open : prof.
Lemma ag_eit_fill t l a b c d e : ag (eit_fill Debug t l a b c d e) (eit_fill Release t l a b c d e).
Proof. revert a b c d e. induction l as [|x l IH]; intros a b c d e; cbn [eit_fill]; ags. Qed.
#[local] Hint Resolve ag_eit_fill : prof.
Lemma ag_eit_schedule a b c : ag (eit_schedule Debug a b c) (eit_schedule Release a b c). Proof. unfold eit_schedule. ags. Qed.
#[local] Hint Resolve ag_eit_schedule : prof.
Lemma ag_eit_sections a : ag (eit_sections Debug a) (eit_sections Release a). Proof. unfold eit_sections. ags. Qed.
#[local] Hint Resolve ag_eit_sections : prof.
Lemma ag_eit_send p l c d : ag (eit_send Debug p l c d) (eit_send Release p l c d).
Proof. revert c d. induction l as [|x l IH]; intros c d; cbn [eit_send]; ags. Qed.
#[local] Hint Resolve ag_eit_send : prof.
Lemma ag_eit_demux a b c d : ag (eit_demux Debug a b c d) (eit_demux Release a b c d). Proof. unfold eit_demux. ags. Qed.
#[local] Hint Resolve ag_eit_demux : prof.
Lemma ag_tdt_parse a b : ag (tdt_parse Debug a b) (tdt_parse Release a b). Proof. unfold tdt_parse. ags. Qed.
#[local] Hint Resolve ag_tdt_parse : prof.
Lemma ag_tdt_section a : ag (tdt_section Debug a) (tdt_section Release a). Proof. unfold tdt_section. ags. Qed.
#[local] Hint Resolve ag_tdt_section : prof.
Lemma ag_tdt_demux a b c d : ag (tdt_demux Debug a b c d) (tdt_demux Release a b c d). Proof. unfold tdt_demux. ags. Qed.
#[local] Hint Resolve ag_tdt_demux : prof.
Lemma ag_tot_parse a b : ag (tot_parse Debug a b) (tot_parse Release a b). Proof. unfold tot_parse. ags. Qed.
#[local] Hint Resolve ag_tot_parse : prof.
Lemma ag_tot_section a : ag (tot_section Debug a) (tot_section Release a). Proof. unfold tot_section. ags. Qed.
#[local] Hint Resolve ag_tot_section : prof.
Lemma ag_tot_demux a b c d : ag (tot_demux Debug a b c d) (tot_demux Release a b c d). Proof. unfold tot_demux. ags. Qed.
#[local] Hint Resolve ag_tot_demux : prof.
Lemma ag_pat_from a : ag (pat_from Debug a) (pat_from Release a). Proof. unfold pat_from. ags. Qed.
#[local] Hint Resolve ag_pat_from : prof.
Lemma ag_pmt_from a : ag (pmt_from Debug a) (pmt_from Release a). Proof. unfold pmt_from. ags. Qed.
#[local] Hint Resolve ag_pmt_from : prof.
Lemma ag_nit_from a : ag (nit_from Debug a) (nit_from Release a). Proof. unfold nit_from. ags. Qed.
#[local] Hint Resolve ag_nit_from : prof.
Lemma ag_sdt_from a : ag (sdt_from Debug a) (sdt_from Release a). Proof. unfold sdt_from. ags. Qed.
#[local] Hint Resolve ag_sdt_from : prof.
Lemma ag_eit_from a : ag (eit_from Debug a) (eit_from Release a). Proof. unfold eit_from. ags. Qed.
#[local] Hint Resolve ag_eit_from : prof.
Lemma ag_tdt_from a : ag (tdt_from Debug a) (tdt_from Release a). Proof. unfold tdt_from. ags. Qed.
#[local] Hint Resolve ag_tdt_from : prof.
Lemma ag_tot_from a : ag (tot_from Debug a) (tot_from Release a). Proof. unfold tot_from. ags. Qed.
#[local] Hint Resolve ag_tot_from : prof.
Lemma ag_adaptation_view a : ag (adaptation_view Debug a) (adaptation_view Release a). Proof. unfold adaptation_view. ags. Qed.
#[local] Hint Resolve ag_adaptation_view : prof.
Lemma ag_ts_adaptation_new a : ag (ts_adaptation_new Debug a) (ts_adaptation_new Release a). Proof. unfold ts_adaptation_new. ags. Qed.
#[local] Hint Resolve ag_ts_adaptation_new : prof.
Lemma ag_ts_packet_new a : ag (ts_packet_new Debug a) (ts_packet_new Release a). Proof. unfold ts_packet_new. ags. Qed.
#[local] Hint Resolve ag_ts_packet_new : prof.
Lemma ag_packet_view a : ag (packet_view Debug a) (packet_view Release a). Proof. unfold packet_view. ags. Qed.
#[local] Hint Resolve ag_packet_view : prof.
Lemma ag_packet_text a b : ag (packet_text Debug a b) (packet_text Release a b). Proof. unfold packet_text. ags. Qed.
#[local] Hint Resolve ag_packet_text : prof.
Lemma ag_adaptation_text a b : ag (adaptation_text Debug a b) (adaptation_text Release a b). Proof. unfold adaptation_text. ags. Qed.
#[local] Hint Resolve ag_adaptation_text : prof.
Lemma ag_analyze {S} (c : cbr S) : ag (analyze Debug c) (analyze Release c). Proof. unfold analyze. ags. Qed.
#[local] Hint Resolve ag_analyze : prof.
Lemma ag_push_packet {S} rd (c : cbr S) : ag (push_packet rd Debug c) (push_packet rd Release c). Proof. unfold push_packet. ags. Qed.
#[local] Hint Resolve ag_push_packet : prof.
Lemma ag_cbr_read {S} rd (c : cbr S) b : ag (cbr_read rd Debug c b) (cbr_read rd Release c b). Proof. unfold cbr_read. ags. Qed.
#[local] Hint Resolve ag_cbr_read : prof.
Lemma ag_cbr_reads {S} rd (c : cbr S) l : ag (cbr_reads rd Debug c l) (cbr_reads rd Release c l).
Proof. revert c. induction l as [|x l IH]; intros c; cbn [cbr_reads]; ags. Qed.
Lemma ag_set_bits w s l : ag (set_bits Debug w s l) (set_bits Release w s l).
Proof. revert s. induction l as [|[v z] l IH]; intros s; cbn [set_bits]; [apply ag_refl|]. destruct l; ags. Qed.
(** drivers *)
Lemma ag_mux_all p l : ag (mux_all Debug p l) (mux_all Release p l).
Proof. revert p. induction l as [|x l IH]; intros p; cbn [mux_all]; ags. Qed.
#[local] Hint Resolve ag_mux_all : prof.
Lemma ag_receive {T} (f g : T -> psi -> res T) p t l : (forall t p, ag (f t p) (g t p)) -> ag (receive Debug f p t l) (receive Release g p t l).
Proof. intros H. revert p t. induction l as [|x l IH]; intros p t; cbn [receive]; ags. Qed.
Lemma ag_follow {T} (f g : T -> psi -> res T) n w s b p t : (forall t p, ag (f t p) (g t p)) -> ag (follow n Debug f w s b p t) (follow n Release g w s b p t).
Proof. intros H. revert s b p t. induction n as [|n IH]; intros s b p t; cbn [follow]; ags. Qed.
Lemma ag_latest {T} ids (f g : psi -> res T) t p : (forall p, ag (f p) (g p)) -> ag (latest ids f t p) (latest ids g t p).
Proof. intros H. unfold latest. ags. Qed.
Lemma ag_tune_packet w u x : ag (tune_packet Debug w u x) (tune_packet Release w u x).
Proof. unfold tune_packet, latest_pmt. ags; apply ag_latest; intros z; ags. Qed.
#[local] Hint Resolve ag_tune_packet : prof.
Lemma ag_tune w u l : ag (tune Debug w u l) (tune Release w u l).
Proof. revert u. induction l as [|x l IH]; intros u; cbn [tune]; ags. Qed.
#[local] Hint Resolve ag_tune : prof.
Lemma ag_measure a b c l : ag (measure Debug a b c l) (measure Release a b c l).
Proof. revert a b c. induction l as [|[x y] l IH]; intros a b c; cbn [measure]; ags. Qed.
Lemma ag_remap f l : ag (remap Debug f l) (remap Release f l).
Proof. induction l as [|x l IH]; cbn [remap]; ags. Qed.
#[local] Hint Resolve ag_remap : prof.
Lemma ag_renumber c l : ag (renumber Debug c l) (renumber Release c l).
Proof. revert c. induction l as [|x l IH]; intros c; cbn [renumber]; ags. Qed.
#[local] Hint Resolve ag_renumber : prof.
Lemma ag_restamp c l : ag (restamp Debug c l) (restamp Release c l).
Proof. induction l as [|x l IH]; cbn [restamp]; ags. Qed.
#[local] Hint Resolve ag_restamp : prof.
Lemma ag_observe p c l : ag (observe Debug p c l) (observe Release p c l).
Proof. revert c. induction l as [|x l IH]; intros c; cbn [observe]; ags. Qed.
#[local] Hint Resolve ag_observe : prof.
