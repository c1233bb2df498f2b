(** Property theorems C74: a table made from one section ([From<&Psi>]), and what comparing sections
    tells. Specification: S_tables, S_noise ([few_errors]). *)
From Verif Require Import Prelude Layout S_crc S_utils S_psi M_text M_psi M_desc S_desc M_tables S_tables Props_tables Props_sections S_noise M_from.
From Verif Require P_sect P_tab2 P_tab6 P_tab7 P_from Facts W_psi Props_eit.

(** * C74 *)
(** the table says what the section says, whatever was received before *)
Theorem C74_pat : forall m p s t, has p s -> field s 0 8 = 0x00 -> (12 <= length s)%nat -> pat_reads s t -> pat_from m p = Ok t.
Proof. intros m p s t H I L R. unfold pat_from. rewrite (C44_read m pat_default p s t H I L R). destruct t; reflexivity. Qed.
Print Assumptions C74_pat.
Theorem C74_pmt : forall m p s t, has p s -> field s 0 8 = 0x02 -> (16 <= length s)%nat -> Props_tables.pmt_seen s t -> pmt_from m p = Ok t.
Proof. intros m p s t H I L R. unfold pmt_from. rewrite (C45_read_one_byte_early m pmt_default p s t H I L R). destruct t; reflexivity. Qed.
Print Assumptions C74_pmt.
Theorem C74_nit : forall m p s t, has p s -> field s 0 8 = 0x40 \/ field s 0 8 = 0x41 -> (16 <= length s)%nat -> nit_reads s t -> nit_from m p = Ok t.
Proof. intros m p s t H I L R. unfold nit_from. rewrite (C47_read m nit_default p s t H I L R). destruct t; reflexivity. Qed.
Print Assumptions C74_nit.
Theorem C74_sdt : forall m p s t, has p s -> field s 0 8 = 0x42 \/ field s 0 8 = 0x46 -> (15 <= length s)%nat -> sdt_reads s t -> sdt_from m p = Ok t.
Proof. intros m p s t H I L R. unfold sdt_from. rewrite (C48_read m sdt_default p s t H I L R). destruct t; reflexivity. Qed.
Print Assumptions C74_sdt.
Theorem C74_eit : forall m p s t, has p s -> 0x4E <= field s 0 8 <= 0x6F -> (18 <= length s)%nat -> eit_reads s t -> eit_from m p = Ok t.
Proof. intros m p s t H I L R. unfold eit_from. rewrite (Props_eit.C49_read m eit_default p s t H I L R). destruct t; reflexivity. Qed.
Print Assumptions C74_eit.
Theorem C74_tot : forall m p s t, has p s -> field s 0 8 = 0x73 -> (14 <= length s)%nat -> tot_reads s t -> tot_from m p = Ok t.
Proof. intros m p s t H I L R. unfold tot_from. rewrite (C52_tot_read m tot_default p s t H I L R). destruct t; reflexivity. Qed.
Print Assumptions C74_tot.
Theorem C74_tdt : forall m p t, bytes (p_buffer p) -> p_size p = 8%nat -> (8 <= length (p_buffer p))%nat ->
  field (p_buffer p) 0 8 = 0x70 -> tdt_reads (firstn 8 (p_buffer p)) t -> tdt_from m p = Ok t.
Proof. intros m p t. exact (C52_tdt_read m 0 p t). Qed.
Print Assumptions C74_tdt.
(** anything else gives the empty table, without notice *)
Theorem C74_nothing : forall m p, consistent p ->
  (~ accepted pat_ids 12 p -> pat_from m p = Ok (mkPat 0 0 [])) /\
  (~ accepted pmt_ids 16 p -> pmt_from m p = Ok (mkPmt 0 0 0 [] [])) /\
  (~ accepted nit_ids 16 p -> nit_from m p = Ok (mkNit 0 0 0 [] [])) /\
  (~ accepted sdt_ids 15 p -> sdt_from m p = Ok (mkSdt 0 0 0 0 [])) /\
  (~ accepted eit_ids 18 p -> eit_from m p = Ok (mkEit 0 0 0 0 0 [])) /\
  (~ accepted tot_ids 14 p -> tot_from m p = Ok (mkTot 0 [])) /\
  (~ (p_size p = 8%nat /\ field (p_buffer p) 0 8 = 0x70) -> tdt_from m p = Ok 0).
Proof.
  intros m p C. split; [exact (C54_pat m pat_default p C)|]. split; [exact (C54_pmt m pmt_default p C)|]. split; [exact (C54_nit m nit_default p C)|].
  split; [exact (C54_sdt m sdt_default p C)|]. split; [exact (C54_eit m eit_default p C)|]. split; [exact (C54_tot m tot_default p C)|].
  exact (C54_tdt m 0 p C).
Qed.
Print Assumptions C74_nothing.
(** two sections that differ, before the CRC, in up to three bits or within 32 bits never compare equal *)
Theorem C74_change_seen : forall p q a b, has p a -> has q b ->
  few_errors (firstn (length a - 4) a) (firstn (length b - 4) b) -> psi_eq p q = Ok false.
Proof. exact P_from.change_seen. Qed.
Print Assumptions C74_change_seen.
(** the same section compares equal, whatever is behind it and on whatever PID *)
Theorem C74_repetition : forall p q s, has p s -> has q s -> psi_eq p q = Ok true.
Proof.
  intros p q s (Hs & Sp & xp & Ep & Bp) (_ & Sq & xq & Eq & Bq). destruct Hs as (Bs & Ls & Ns & Cs).
  destruct (W_psi.eq_complete p q) as (r & E & R).
  - rewrite Ep. apply Forall_app. split; assumption.
  - rewrite Eq. apply Forall_app. split; assumption.
  - rewrite Ep, app_length. lia.
  - rewrite Eq, app_length. lia.
  - rewrite E. f_equal. apply R. split; [congruence|]. rewrite Sp, Sq, Ep, Eq, !skipn_app, !firstn_app, !skipn_length.
    replace (4 - (length s - (length s - 4)))%nat with O by lia. reflexivity.
Qed.
Print Assumptions C74_repetition.
(** but a receiver that takes a new table only if the section differs can miss a change: two PAT sections
    with right CRCs that compare equal and give different tables *)
Theorem C74_change_refuted : exists a b, section_ok a /\ section_ok b /\ forall m, exists ta tb,
  psi_eq (mkPsi a (length a) 0 0) (mkPsi b (length b) 0 0) = Ok true /\
  pat_from m (mkPsi a (length a) 0 0) = Ok ta /\ pat_from m (mkPsi b (length b) 0 0) = Ok tb /\ ta <> tb /\
  pat_version ta = pat_version tb.
Proof.
  exists (finished [0x00; 0xB0; 0; 0; 7; 0xC3; 0; 0; 0; 1; 0xE1; 0; 0; 2; 0xE2; 0]),
         (finished [0x00; 0xB0; 0; 0; 7; 0xC3; 0; 0; 0; 0; 0xE5; 0xC1; 0x1D; 0xB5; 0xE2; 0]).
  split; [apply P_sect.finished_ok; [apply Facts.bytesb_iff; reflexivity|cbn; lia]|].
  split; [apply P_sect.finished_ok; [apply Facts.bytesb_iff; reflexivity|cbn; lia]|].
  intros []; eexists; eexists; (split; [vm_compute; reflexivity|split; [vm_compute; reflexivity|split; [vm_compute; reflexivity|split; [discriminate|reflexivity]]]]).
Qed.
Print Assumptions C74_change_refuted.
Example C74_ex : pat_from Debug (ex_psi ex_pat_bytes) = Ok ex_pat /\
  sdt_from Debug (ex_psi ex_pat_bytes) = Ok (mkSdt 0 0 0 0 []) /\
  few_errors (firstn 3 [1; 2; 3]) [1; 6; 3] /\
  psi_eq (ex_psi ex_pat_bytes) (mkPsi (ex_pat_bytes ++ [1; 2]) (length ex_pat_bytes) 5 6) = Ok true.
Proof.
  split; [vm_compute; reflexivity|]. split; [vm_compute; reflexivity|]. split; [|vm_compute; reflexivity].
  exists [0; 4; 0]. split; [repeat constructor|]. split; [reflexivity|]. split; [reflexivity|]. left. vm_compute. lia.
Qed.
