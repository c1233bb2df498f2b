(** Property theorems C93: sending only adds behind what is there, reading only adds to what was read. No conditions on anything. Specification: S_tables. *)
From Verif Require Import Prelude M_text M_psi M_desc M_tables S_tables.
From Verif Require Import Props_tables.
From Verif Require P_frame.

(** ** sending: the buffer is kept, and neither what is added nor the counter nor whether it panics depends on it *)
Definition behind (dst : list N) (r : res (N * list N)) : res (N * list N) := match r with Ok (cc, out) => Ok (cc, dst ++ out) | Panic => Panic | Hang => Hang end.
Theorem C93_pat : forall m t pid cc dst, pat_demux m t pid cc dst = behind dst (pat_demux m t pid cc []).
Proof. exact P_frame.fr_pat. Qed.
Print Assumptions C93_pat.
Theorem C93_pmt : forall m t pid cc dst, pmt_demux m t pid cc dst = behind dst (pmt_demux m t pid cc []).
Proof. exact P_frame.fr_pmt. Qed.
Print Assumptions C93_pmt.
Theorem C93_nit : forall m t pid cc dst, nit_demux m t pid cc dst = behind dst (nit_demux m t pid cc []).
Proof. exact P_frame.fr_nit. Qed.
Print Assumptions C93_nit.
Theorem C93_sdt : forall m t pid cc dst, sdt_demux m t pid cc dst = behind dst (sdt_demux m t pid cc []).
Proof. exact P_frame.fr_sdt. Qed.
Print Assumptions C93_sdt.
Theorem C93_eit : forall m t pid cc dst, eit_demux m t pid cc dst = behind dst (eit_demux m t pid cc []).
Proof. exact P_frame.fr_eit. Qed.
Print Assumptions C93_eit.
Theorem C93_tdt : forall m t pid cc dst, tdt_demux m t pid cc dst = behind dst (tdt_demux m t pid cc []).
Proof. exact P_frame.fr_tdt. Qed.
Print Assumptions C93_tdt.
Theorem C93_tot : forall m t pid cc dst, tot_demux m t pid cc dst = behind dst (tot_demux m t pid cc []).
Proof. exact P_frame.fr_tot. Qed.
Print Assumptions C93_tot.
(** one section as it stands, and descriptors *)
Theorem C93_section : forall m p dst, psi_demux m p dst = (r <- psi_demux m p [] ;; Ok (fst r, dst ++ snd r)).
Proof. intros m p dst. rewrite <- (P_frame.fr_psi m p dst []), app_nil_r. reflexivity. Qed.
Print Assumptions C93_section.
Theorem C93_descriptor : forall m d b, desc_assemble m d b = (x <- desc_assemble m d [] ;; Ok (b ++ x)).
Proof. exact (fun m d => P_frame.behind _ (P_frame.fr_desc m d)). Qed.
Print Assumptions C93_descriptor.
Theorem C93_descriptors : forall m ds b, descs_assemble m ds b = (x <- descs_assemble m ds [] ;; Ok (b ++ fst x, snd x)).
Proof.
  intros m ds b. unfold descs_assemble. cbv zeta. rewrite (P_frame.behind _ (P_frame.fr_descs m ds) b).
  destruct (descs_bytes m ds []) as [x| |]; cbn [bind fst snd length]; try reflexivity. rewrite app_length, Nat.sub_0_r. do 2 f_equal. lia.
Qed.
Print Assumptions C93_descriptors.

(** ** reading: sections do nothing to any table, or they add the same to every table, and whether they panic does not depend on it *)
(** sections read one after the other *)
Fixpoint hear {A} (parse : A -> psi -> res A) (ps : list psi) (old : A) : res A :=
  match ps with [] => Ok old | p :: r => v <- parse old p ;; hear parse r v end.
Definition only_adds {A} (parse : A -> psi -> res A) (add : A -> A -> A) (none : A) (ps : list psi) : Prop :=
  (forall old, hear parse ps old = Ok old) \/ (forall old, hear parse ps old = (v <- hear parse ps none ;; Ok (add old v))).
Theorem C93_reads_pat : forall m ps, only_adds (pat_parse m) pat_add pat_default ps.
Proof. exact P_frame.many_pat. Qed.
Print Assumptions C93_reads_pat.
Theorem C93_reads_pmt : forall m ps, only_adds (pmt_parse m) pmt_add pmt_default ps.
Proof. exact P_frame.many_pmt. Qed.
Print Assumptions C93_reads_pmt.
Theorem C93_reads_nit : forall m ps, only_adds (nit_parse m) nit_add nit_default ps.
Proof. exact P_frame.many_nit. Qed.
Print Assumptions C93_reads_nit.
Theorem C93_reads_sdt : forall m ps, only_adds (sdt_parse m) sdt_add sdt_default ps.
Proof. exact P_frame.many_sdt. Qed.
Print Assumptions C93_reads_sdt.
Theorem C93_reads_eit : forall m ps, only_adds (eit_parse m) eit_add eit_default ps.
Proof. exact P_frame.many_eit. Qed.
Print Assumptions C93_reads_eit.
Theorem C93_reads_tot : forall m ps, only_adds (tot_parse m) tot_add tot_default ps.
Proof. exact P_frame.many_tot. Qed.
Print Assumptions C93_reads_tot.
(** a time replaces the time that was there *)
Theorem C93_reads_tdt : forall m ps, (forall old, hear (tdt_parse m) ps old = Ok old) \/ (forall old, hear (tdt_parse m) ps old = hear (tdt_parse m) ps 0).
Proof. exact P_frame.many_tdt. Qed.
Print Assumptions C93_reads_tdt.

(** a section of a PAT with one program, read twice: the program is there twice; a date before 1970 panics for every table *)
Definition sec (l : list N) : psi := mkPsi l (length l) 0 0.
Definition one : psi := match pat_sections Debug (mkPat 3 5 [mkPatI 1 256]) with Ok [p] => match psi_finalize p with Ok q => sec (p_buffer q) | _ => sec [] end | _ => sec [] end.
Example C93_ex : hear (pat_parse Debug) [one; one] pat_default = Ok (mkPat 3 5 [mkPatI 1 256; mkPatI 1 256]) /\
  hear (pat_parse Debug) [one; one] (mkPat 0 0 [mkPatI 7 8]) = Ok (mkPat 3 5 [mkPatI 7 8; mkPatI 1 256; mkPatI 1 256]) /\
  hear (tdt_parse Debug) [sec [0x70; 0x70; 5; 0; 0; 0; 0; 0]] 12 = Panic /\
  (exists out, pat_demux Debug ex_pat 0 3 [1; 2; 3] = Ok (4, [1; 2; 3] ++ out) /\ length out = 188%nat) /\
  tdt_demux Debug 0 8192 0 [1; 2; 3] = Panic.
Proof.
  split; [vm_compute; reflexivity|]. split; [vm_compute; reflexivity|]. split; [vm_compute; reflexivity|]. split; [|vm_compute; reflexivity].
  exists (match pat_demux Debug ex_pat 0 3 [] with Ok (_, o) => o | _ => [] end). split; vm_compute; reflexivity.
Qed.
