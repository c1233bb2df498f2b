(** Property theorems C88: what can make a sender abort. Specification: S_sender. *)
From Verif Require Import Prelude S_text M_text S_desc M_desc M_psi M_tables S_sender.
From Verif Require P_sender P_sender2 P_sender3 P_sender4.

(** * C88 *)
(** values of the field types, any vector to append to: a descriptor can only be stopped by numbers with too many digits *)
Theorem C88_descriptor : forall d b, desc_typed d -> bytes b -> stops_if (fun m => desc_assemble m d b) (desc_over d).
Proof. intros d b T H. eapply P_sender.st_final. intros m. exact (P_sender.st_desc m d (length b) b T (conj eq_refl H)). Qed.
Print Assumptions C88_descriptor.
(** how many bytes it appends, and how many it announces *)
Theorem C88_written : forall m d b r, desc_typed d -> bytes b -> desc_assemble m d b = Ok r -> exists x, r = b ++ x /\ length x = written d /\ bytes x.
Proof. exact P_sender4.desc_ends. Qed.
Print Assumptions C88_written.
Theorem C88_said : forall d, desc_size d = said d.
Proof. exact P_sender.size_said. Qed.
Print Assumptions C88_said.
(** the tables, with any PID, counter and buffer of packets *)
Definition sends {T} (typed : T -> Prop) (demux : mode -> T -> N -> N -> list N -> res (N * list N)) (over : T -> bool) : Prop :=
  forall t pid cc dst, typed t -> pid < 2 ^ 16 -> cc < 2 ^ 8 -> bytes dst -> stops_if (fun m => demux m t pid cc dst) (address_over pid cc || over t).
Theorem C88_pat : sends pat_typed pat_demux (fun _ => false).
Proof. intros t pid cc dst T _ C D. rewrite orb_false_r. eapply P_sender.st_final. intros m. exact (P_sender3.st_pat m t pid cc dst T D C). Qed.
Print Assumptions C88_pat.
Theorem C88_pmt : sends pmt_typed pmt_demux (fun t => loop_over (pmt_descs t) || existsb (fun i => loop_over (pmti_descs i)) (pmt_items t)).
Proof. intros t pid cc dst T _ C D. rewrite orb_assoc. eapply P_sender.st_final. intros m. exact (P_sender3.st_pmt m t pid cc dst T D C). Qed.
Print Assumptions C88_pmt.
Theorem C88_nit : sends nit_typed nit_demux (fun t => loop_over (nit_descs t) || existsb (fun i => loop_over (niti_descs i)) (nit_items t)).
Proof. intros t pid cc dst T _ C D. rewrite orb_assoc. eapply P_sender.st_final. intros m. exact (P_sender3.st_nit m t pid cc dst T D C). Qed.
Print Assumptions C88_nit.
Theorem C88_sdt : sends sdt_typed sdt_demux (fun t => existsb (fun i => loop_over (sdti_descs i)) (sdt_items t)).
Proof. intros t pid cc dst T _ C D. eapply P_sender.st_final. intros m. exact (P_sender3.st_sdt m t pid cc dst T D C). Qed.
Print Assumptions C88_sdt.
Theorem C88_tot : sends tot_typed tot_demux (fun t => loop_over (tot_descs t)).
Proof. intros t pid cc dst T _ C D. eapply P_sender.st_final. intros m. exact (P_sender3.st_tot m t pid cc dst T D C). Qed.
Print Assumptions C88_tot.
Theorem C88_tdt : sends (fun t => t < 2 ^ 64) tdt_demux (fun _ => false).
Proof. intros t pid cc dst T _ C D. rewrite orb_false_r. eapply P_sender.st_final. intros m. exact (P_sender3.st_tdt m t pid cc dst T D C). Qed.
Print Assumptions C88_tdt.
(** an EIT without events sends nothing and never stops *)
Theorem C88_eit : forall t pid cc dst, eit_typed t -> pid < 2 ^ 16 -> cc < 2 ^ 8 -> bytes dst -> stops_if (fun m => eit_demux m t pid cc dst) (eit_over t pid cc).
Proof. intros t pid cc dst T _ C D. exact (P_sender4.eit_stops t pid cc dst T D C). Qed.
Print Assumptions C88_eit.
(** numbers that fit their digits stop nothing *)
Theorem C88_fits : forall d, desc_over d = true -> match d with
  | D43 d => 10 ^ 8 <= d43_freq d / 10 \/ 10 ^ 4 <= d43_orbital d / 6 \/ 10 ^ 8 <= d43_rate d
  | D44 d => 10 ^ 8 <= d44_freq d / 100 \/ 10 ^ 8 <= d44_rate d
  | _ => False end.
Proof. exact P_sender4.over_big. Qed.
Print Assumptions C88_fits.

(** a satellite at 6000 degrees, two events in the wrong order, a schedule of table 0xF0 over 64 days: with overflow checks each
    of them stops the sender; 3 GHz at a unit of 10 has nine digits and passes *)
Definition far : desc := D43 (mk43 1000 60000 0 0 0 0 0 27500 3).
Definition nine : desc := D43 (mk43 3000000000 192 0 0 0 0 0 27500 3).
Definition event (s : N) : eit_item := mkEitI 1 s 60 0 0 [].
Definition back : eit := mkEit 0x50 0 1 1 1 [event 86400; event 0].
Definition late : eit := mkEit 0xF0 0 1 1 1 [event 0; event 5529600].
Example C88_ex :
  (desc_assemble Debug far [] = Panic /\ exists r, desc_assemble Release far [] = Ok r) /\
  (desc_over nine = false /\ exists r, desc_assemble Debug nine [] = Ok r) /\
  (eit_over back 18 0 = true /\ eit_demux Debug back 18 0 [] = Panic) /\
  (eit_over late 18 0 = true /\ eit_demux Debug late 18 0 [] = Panic) /\
  tdt_demux Debug 0 8192 0 [] = Panic.
Proof.
  split; [split; [vm_compute; reflexivity|eexists; vm_compute; reflexivity]|]. split; [split; [vm_compute; reflexivity|eexists; vm_compute; reflexivity]|].
  split; [split; vm_compute; reflexivity|]. split; [split; vm_compute; reflexivity|]. vm_compute. reflexivity.
Qed.
