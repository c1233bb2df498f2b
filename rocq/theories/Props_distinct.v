(** Property theorems C91: different tables are sent as different packets. [X_sound] (S_distinct): every part fits its
    length and comes back when read; the fields hold any value of their types, of which [fit_X] (S_wide) is sent. *)
From Verif Require Import Prelude S_utils S_psi M_text M_psi M_recv M_desc S_desc M_tables S_tables S_sender S_wide S_distinct.
From Verif Require Import Props_wide.
From Verif Require P_distinct P_wide2 P_tab5.

(** what is sent, on which PID and from which counter, can be told from the packets *)
Definition told {T} (sound : T -> Prop) (demux : mode -> T -> N -> N -> list N -> res (N * list N)) (fit : T -> T) : Prop :=
  forall m t t' pid pid' cc cc' dst, sound t -> sound t' -> pid < 8192 -> pid' < 8192 -> cc < 16 -> cc' < 16 ->
  (demux m t pid cc dst = demux m t' pid' cc' dst <-> pid = pid' /\ cc = cc' /\ fit t = fit t').
Lemma loops_exact {A} (ds : A -> list desc) (f : A -> A) items : (forall i, ds (f i) = fit_loop (ds i)) -> Forall (fun i => loop_sound (ds i)) items ->
  Forall (fun i => loop_sized (ds i)) items /\ Forall (P_tab4.item_exact ds) (map f items).
Proof.
  intros E F. split; [eapply Forall_impl; [|exact F]; intros i [H _]; exact H|].
  refine (P_wide2.map_Forall _ _ _ _ _ F). intros i [_ H]. unfold P_tab4.item_exact. rewrite E. exact H.
Qed.
Theorem C91_pat : told pat_sound pat_demux fit_pat.
Proof.
  intros m t t' pid pid' cc cc' dst [T L] [T' L'] P P' C C'. split.
  - intros E. rewrite (C90_pat m t), (C90_pat m t') in E by assumption. refine (P_distinct.apart_pat m _ _ pid cc pid' cc' dst (P_wide2.range_pat t T) (P_wide2.range_pat t' T') _ _ P P' C C' E).
    + unfold fit_pat. cbn [pat_items]. rewrite map_length. exact L.
    + unfold fit_pat. cbn [pat_items]. rewrite map_length. exact L'.
  - intros (-> & -> & E). rewrite (C90_pat m t), (C90_pat m t') by assumption. rewrite E. reflexivity.
Qed.
Print Assumptions C91_pat.
Theorem C91_pmt : told pmt_sound pmt_demux fit_pmt.
Proof.
  intros m t t' pid pid' cc cc' dst (T & F & [D1 D2] & I) (T' & F' & [D1' D2'] & I') P P' C C'. split.
  - intros E. rewrite (C90_pmt m t), (C90_pmt m t') in E by assumption.
    destruct (loops_exact pmti_descs (fun i => mkPmtI (pmti_type i) (pmti_pid i mod 8192) (fit_loop (pmti_descs i))) _ ltac:(reflexivity) I) as [Z X].
    destruct (loops_exact pmti_descs (fun i => mkPmtI (pmti_type i) (pmti_pid i mod 8192) (fit_loop (pmti_descs i))) _ ltac:(reflexivity) I') as [Z' X'].
    exact (P_distinct.apart_pmt m _ _ pid cc pid' cc' dst (P_wide2.range_pmt t T D1 Z) (P_wide2.range_pmt t' T' D1' Z') (P_wide2.fits_pmt _ t F) (P_wide2.fits_pmt _ t' F') D2 D2' X X' P P' C C' E).
  - intros (-> & -> & E). rewrite (C90_pmt m t), (C90_pmt m t') by assumption. rewrite E. reflexivity.
Qed.
Print Assumptions C91_pmt.
Theorem C91_nit : told nit_sound nit_demux fit_nit.
Proof.
  intros m t t' pid pid' cc cc' dst (T & F & [D1 D2] & I & B) (T' & F' & [D1' D2'] & I' & B') P P' C C'. split.
  - intros E. rewrite (C90_nit m t), (C90_nit m t') in E by assumption.
    destruct (loops_exact niti_descs (fun i => mkNitI (niti_tsid i) (niti_onid i) (fit_loop (niti_descs i))) _ ltac:(reflexivity) I) as [Z X].
    destruct (loops_exact niti_descs (fun i => mkNitI (niti_tsid i) (niti_onid i) (fit_loop (niti_descs i))) _ ltac:(reflexivity) I') as [Z' X'].
    exact (P_distinct.apart_nit m _ _ pid cc pid' cc' dst (P_wide2.range_nit t T D1 Z) (P_wide2.range_nit t' T' D1' Z') (P_wide2.fits_nit _ t F) (P_wide2.fits_nit _ t' F') D2 D2' X X' B B' P P' C C' E).
  - intros (-> & -> & E). rewrite (C90_nit m t), (C90_nit m t') by assumption. rewrite E. reflexivity.
Qed.
Print Assumptions C91_nit.
Theorem C91_sdt : told sdt_sound sdt_demux fit_sdt.
Proof.
  intros m t t' pid pid' cc cc' dst (T & F & I & B) (T' & F' & I' & B') P P' C C'. split.
  - intros E. rewrite (C90_sdt m t), (C90_sdt m t') in E by assumption.
    destruct (loops_exact sdti_descs (fun i => mkSdtI (sdti_pnr i) (N.lor (sdti_sched i) (sdti_pf i / 2) mod 2) (sdti_pf i mod 2) (N.lor (sdti_status i) (sdti_ca i / 2) mod 8) (sdti_ca i mod 2) (fit_loop (sdti_descs i))) _ ltac:(reflexivity) I) as [Z X].
    destruct (loops_exact sdti_descs (fun i => mkSdtI (sdti_pnr i) (N.lor (sdti_sched i) (sdti_pf i / 2) mod 2) (sdti_pf i mod 2) (N.lor (sdti_status i) (sdti_ca i / 2) mod 8) (sdti_ca i mod 2) (fit_loop (sdti_descs i))) _ ltac:(reflexivity) I') as [Z' X'].
    exact (P_distinct.apart_sdt m _ _ pid cc pid' cc' dst (P_wide2.range_sdt t T Z) (P_wide2.range_sdt t' T' Z') (P_wide2.fits_sdt _ t F) (P_wide2.fits_sdt _ t' F') X X' B B' P P' C C' E).
  - intros (-> & -> & E). rewrite (C90_sdt m t), (C90_sdt m t') by assumption. rewrite E. reflexivity.
Qed.
Print Assumptions C91_sdt.
Lemma eit_parts t : eit_sound t -> eit_typed t /\ eit_ok (fit_eit t) /\ eit_fits (N.to_nat 4098) (fit_eit t) /\
  Forall (P_tab4.item_exact eiti_descs) (eit_items (fit_eit t)).
Proof.
  intros (T & F & I). split; [exact T|]. split; [|split; [exact (P_wide2.fits_eit _ t F)|]].
  - apply (P_wide2.range_eit t T). eapply Forall_impl; [|exact I]. intros i (H1 & H2 & _). split; assumption.
  - refine (P_wide2.map_Forall _ _ _ _ _ I). intros i (_ & _ & H). exact H.
Qed.
Theorem C91_pf : told pf_sound eit_demux fit_eit.
Proof.
  intros m t t' pid pid' cc cc' dst (H & B & L) (H' & B' & L') P P' C C'. destruct (eit_parts t H) as (T & O & F & X), (eit_parts t' H') as (T' & O' & F' & X'). split.
  - intros E. rewrite (C90_eit m t), (C90_eit m t') in E by assumption.
    refine (P_distinct.apart_pf m _ _ pid cc pid' cc' dst O O' F F' X X' B B' _ _ P P' C C' E).
    + unfold fit_eit. cbn [eit_items]. rewrite map_length. exact L.
    + unfold fit_eit. cbn [eit_items]. rewrite map_length. exact L'.
  - intros (-> & -> & E). rewrite (C90_eit m t), (C90_eit m t') by assumption. rewrite E. reflexivity.
Qed.
Print Assumptions C91_pf.
(** a schedule may stop a debug build (C50_no_abort, C88) *)
Theorem C91_schedule : forall m t t' pid pid' cc cc' dst r, schedule_sound t -> schedule_sound t' -> pid < 8192 -> pid' < 8192 -> cc < 16 -> cc' < 16 ->
  eit_demux m t pid cc dst = Ok r -> (eit_demux m t' pid' cc' dst = Ok r <-> pid = pid' /\ cc = cc' /\ fit_eit t = fit_eit t').
Proof.
  intros m t t' pid pid' cc cc' dst r (H & B & L) (H' & B' & L') P P' C C' D. destruct (eit_parts t H) as (T & O & F & X), (eit_parts t' H') as (T' & O' & F' & X'). split.
  - intros E. rewrite (C90_eit m t) in D by assumption. rewrite (C90_eit m t') in E by assumption.
    destruct (eit_items t) as [|i l] eqn:W; [cbn [length] in L; lia|]. destruct (eit_items t') as [|i' l'] eqn:W'; [cbn [length] in L'; lia|].
    refine (P_distinct.apart_schedule m (fit_eit t) (fit_eit t') (fit_event i) (map fit_event l) (fit_event i') (map fit_event l') pid cc pid' cc' dst O O' F F' X X' B B' _ _ _ _ P P' C C' (ex_intro _ r D) _).
    + unfold fit_eit. cbn [eit_items]. rewrite W. reflexivity.
    + unfold fit_eit. cbn [eit_items]. rewrite W'. reflexivity.
    + unfold fit_eit. cbn [eit_items]. rewrite map_length, W. apply L.
    + unfold fit_eit. cbn [eit_items]. rewrite map_length, W'. apply L'.
    + rewrite D, E. reflexivity.
  - intros (<- & <- & E). rewrite (C90_eit m t') by assumption. rewrite <- E, <- (C90_eit m t) by assumption. exact D.
Qed.
Print Assumptions C91_schedule.
Theorem C91_tot : told tot_sound tot_demux fit_tot.
Proof.
  intros m t t' pid pid' cc cc' dst (T & H & [D1 D2] & L) (T' & H' & [D1' D2'] & L') P P' C C'. split.
  - intros E. rewrite (C90_tot m t), (C90_tot m t') in E by assumption.
    refine (P_distinct.apart_tot m (fit_tot t) (fit_tot t') pid cc pid' cc' dst H H' (P_wide2.fit_loop_ok _ (proj2 T) D1) (P_wide2.fit_loop_ok _ (proj2 T') D1') _ _ D2 D2' P P' C C' E).
    + unfold fit_tot. cbn [tot_descs]. rewrite P_wide2.fit_wire_len. exact L.
    + unfold fit_tot. cbn [tot_descs]. rewrite P_wide2.fit_wire_len. exact L'.
  - intros (-> & -> & E). rewrite (C90_tot m t), (C90_tot m t') by assumption. rewrite E. reflexivity.
Qed.
Print Assumptions C91_tot.
Theorem C91_tdt : told (fun time => time < MJD_END) tdt_demux (fun time => time).
Proof.
  intros m t t' pid pid' cc cc' dst T T' P P' C C'. split.
  - intros E. exact (P_distinct.apart_tdt m t t' pid cc pid' cc' dst T T' P P' C C' E).
  - intros (-> & -> & ->). reflexivity.
Qed.
Print Assumptions C91_tdt.

(** ** the conditions are needed *)
(** a PAT keeps 253 programs: what comes after them cannot be told *)
Theorem C91_pat_refuted : exists t t', pat_typed t /\ pat_typed t' /\ fit_pat t <> fit_pat t' /\
  forall m pid cc dst, pid < 8192 -> cc < 16 -> pat_demux m t pid cc dst = pat_demux m t' pid cc dst.
Proof.
  exists (mkPat 0 1 (repeat (mkPatI 1 100) 253)), (mkPat 0 1 (repeat (mkPatI 1 100) 254)).
  assert (T : forall n, pat_typed (mkPat 0 1 (repeat (mkPatI 1 100) n))).
  { intros n. split; [reflexivity|]. split; [reflexivity|]. cbn [pat_items]. apply Forall_forall. intros i Hi. apply repeat_spec in Hi. subst i. split; reflexivity. }
  split; [apply T|]. split; [apply T|]. split.
  - intros E. apply (f_equal (fun t => length (pat_items t))) in E. unfold fit_pat in E. cbn [pat_items] in E. rewrite !map_length, !repeat_length in E. discriminate.
  - assert (O : forall n, pat_ok (mkPat 0 1 (repeat (mkPatI 1 100) n))).
    { intros n. split; [reflexivity|]. split; [reflexivity|]. cbn [pat_items]. apply Forall_forall. intros i Hi. apply repeat_spec in Hi. subst i. split; reflexivity. }
    intros m pid cc dst P C. destruct (P_tab5.pat_demux_spec m _ pid cc dst (O 253%nat) P C) as [S _], (P_tab5.pat_demux_spec m _ pid cc dst (O 254%nat) P C) as [S' _]. rewrite S, S'. reflexivity.
Qed.
Print Assumptions C91_pat_refuted.
(** nor can two names that are both empty *)
Definition named (code : N) : nit := mkNit 0x40 0 1 [D40 (mkDvb code [])] [].
Theorem C91_name_refuted : exists t t', nit_typed t /\ nit_typed t' /\ fit_nit t <> fit_nit t' /\ nit_demux Debug t 16 0 [] = nit_demux Debug t' 16 0 [].
Proof. exists (named 0), (named 5). split; [repeat split; repeat constructor|]. split; [repeat split; repeat constructor|]. split; [discriminate|vm_compute; reflexivity]. Qed.
Print Assumptions C91_name_refuted.

(** PMTs with program descriptors, which the library's own receiver does not read back *)
Definition ex_told (caid : N) : pmt := mkPmt 3 100 0x100 [D09 (mk09 caid 0x1FF [])] [mkPmtI 2 0x101 [D52 1]].
Example C91_ex : pmt_sound (ex_told 0x500) /\ pmt_sound (ex_told 0x501) /\
  pmt_demux Debug (ex_told 0x500) 100 0 [] <> pmt_demux Debug (ex_told 0x501) 100 0 [] /\
  pmt_demux Debug (ex_told 0x500) 100 0 [] <> pmt_demux Debug (ex_told 0x500) 100 1 [].
Proof.
  assert (S : forall c, c < 0x600 -> pmt_sound (ex_told c)).
  { intros c Hc. assert (Hc' : c < 65536) by lia. split; [repeat split; repeat constructor; exact Hc'|]. split; [split; [apply Nat.leb_le; vm_compute; reflexivity|constructor; [apply Nat.leb_le; vm_compute; reflexivity|constructor]]|].
    split; [split; [split; [constructor; [split; [exact I|split; [apply Nat.ltb_lt; vm_compute; reflexivity|exact I]]|constructor]|apply Nat.ltb_lt; vm_compute; reflexivity]|repeat constructor]|].
    constructor; [|constructor]. split; [split; [constructor; [split; [exact I|split; [apply Nat.ltb_lt; vm_compute; reflexivity|exact I]]|constructor]|apply Nat.ltb_lt; vm_compute; reflexivity]|repeat constructor]. }
  assert (A : pmt_sound (ex_told 0x500)) by (apply S; reflexivity). assert (B : pmt_sound (ex_told 0x501)) by (apply S; reflexivity).
  split; [exact A|]. split; [exact B|]. split; intros E.
  - destruct (proj1 (C91_pmt Debug (ex_told 0x500) (ex_told 0x501) 100 100 0 0 [] A B eq_refl eq_refl eq_refl eq_refl) E) as (_ & _ & X). discriminate X.
  - destruct (proj1 (C91_pmt Debug (ex_told 0x500) (ex_told 0x500) 100 100 0 1 [] A A eq_refl eq_refl eq_refl eq_refl) E) as (_ & X & _). discriminate X.
Qed.
