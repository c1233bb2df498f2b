(** Proofs: what can make a sender abort, table by table. *)
From Verif Require Import Prelude Layout Facts S_text S_utils S_desc M_bytes M_ts M_crc M_utils M_text M_psi M_desc M_tables
  P_text2 P_utils P_crc P_desc P_tab P_tab3 P_eit3 S_tables S_sender P_sender P_sender2.

(** ** PAT, PMT, SDT, TOT, TDT *)
Lemma st_pat_fill items : forall n b, B n b -> (8 <= n)%nat -> st false (pat_fill items b) (fun b => (8 <= length b)%nat /\ bytes b).
Proof.
  induction items as [|i r IH]; intros n b H L; cbn [pat_fill].
  - apply st_ok. destruct H. split; [lia|assumption].
  - destruct (SECTION_SIZE <? length b + pat_item_size i)%nat.
    + apply st_ok. destruct H. split; [lia|assumption].
    + eapply st_seq; [apply st_pati; exact H|]. intros a A. apply (IH _ _ A). lia.
Qed.
Lemma st_pat m t pid cc dst : pat_typed t -> bytes dst -> cc < 256 -> st (dbg m && address_over pid cc) (pat_demux m t pid cc dst) (fun _ => True).
Proof.
  intros (T1 & T2 & T3) D C. unfold pat_demux. apply (st_table_of m (pat_sections m t) false pid cc dst); [|exact D|exact C]. rewrite andb_false_r. unfold pat_sections.
  eapply st_seq; [apply st_psi_new; [reflexivity|lia]|]. intros p (P1 & P2). step. eapply st_seq; [eapply st_pat_fill; [eassumption|lia]|]. intros b (B1 & B2).
  apply st_ok. split; [|discriminate]. constructor; [|constructor]. split; [|split]; cbn [with_buffer p_buffer p_size]; assumption.
Qed.

Lemma sec_add k p b n : sec k p -> B (length (p_buffer p) + n) b -> sec k (with_buffer p b).
Proof. intros (L & _ & Z) (B1 & B2). split; [|split]; cbn [with_buffer p_buffer p_size]; [lia|exact B2|exact Z]. Qed.
Lemma B_self p k : sec k p -> B (length (p_buffer p)) (p_buffer p).
Proof. intros (_ & H & _). split; [reflexivity|exact H]. Qed.
Lemma sec_done k n p b : p_size p = 0%nat -> B n b -> (k <= n)%nat -> sec k (with_buffer p b).
Proof. intros Z (L & H) K. split; [|split]; cbn [with_buffer p_buffer p_size]; [lia|exact H|exact Z]. Qed.
Lemma orb_swap a b c : a || b || c = b || c || a. Proof. destruct a, b, c; reflexivity. Qed.

Lemma st_pmt_init m t first : pmt_typed t -> st (dbg m && (first && loop_over (pmt_descs t))) (pmt_init m t first) (sec 8).
Proof.
  intros (T1 & T2 & T3 & T4 & T5). unfold pmt_init. eapply st_seq; [apply st_psi_new; [reflexivity|lia]|]. intros p (P1 & P2). do 2 step. destruct first; cbn [andb].
  - eapply st_then with (Q := B (12 + sum written (pmt_descs t))); [|intros b Hb; apply st_ok; eapply sec_done; [exact P2|exact Hb|lia]].
    loop T4. fin. auto.
  - rewrite andb_false_r. step. apply st_ok. eapply sec_done; [exact P2|eassumption|lia].
Qed.
Lemma st_pmt m t pid cc dst : pmt_typed t -> bytes dst -> cc < 256 ->
  st (dbg m && (address_over pid cc || loop_over (pmt_descs t) || existsb (fun i => loop_over (pmti_descs i)) (pmt_items t))) (pmt_demux m t pid cc dst) (fun _ => True).
Proof.
  intros T D C. rewrite orb_swap. unfold pmt_demux. apply st_table_of; [|exact D|exact C]. unfold pmt_sections. rewrite andb_orb_distrib_r.
  eapply st_bind; [exact (st_pmt_init m t true T)|]. intros p P.
  eapply (st_pack _ _ _ _ (fun i => pmti_type i < 2 ^ 8 /\ descs_typed (pmti_descs i)) (fun i => loop_over (pmti_descs i)) (sec 8)).
  - pose proof (st_pmt_init m t false T) as H. cbn [andb] in H. rewrite andb_false_r in H. exact H.
  - intros i q (O1 & O2) Q. eapply st_weak; [eapply st_pmti; [exact O1|exact O2|eapply B_self; exact Q]|]. intros b Hb. eapply sec_add; [exact Q|exact Hb].
  - destruct T as (_ & _ & _ & _ & T5). eapply Forall_impl; [|exact T5]. intros i (X1 & _ & X2). auto.
  - constructor.
  - exact P.
Qed.

Lemma st_sdt_init m t : sdt_typed t -> st false (sdt_init m t) (sec 8).
Proof.
  intros (T1 & _). unfold sdt_init. eapply st_seq; [apply st_psi_new; [exact T1|lia]|]. intros p (P1 & P2). do 4 step. apply st_ok. eapply sec_done; [exact P2|eassumption|lia].
Qed.
Lemma st_sdt m t pid cc dst : sdt_typed t -> bytes dst -> cc < 256 ->
  st (dbg m && (address_over pid cc || existsb (fun i => loop_over (sdti_descs i)) (sdt_items t))) (sdt_demux m t pid cc dst) (fun _ => True).
Proof.
  intros T D C. rewrite orb_comm. unfold sdt_demux. apply st_table_of; [|exact D|exact C]. unfold sdt_sections.
  eapply st_seq; [exact (st_sdt_init m t T)|]. intros p P.
  eapply (st_pack _ _ _ _ (fun i => sdti_pf i < 2 ^ 8 /\ descs_typed (sdti_descs i)) (fun i => loop_over (sdti_descs i)) (sec 8)).
  - exact (st_sdt_init m t T).
  - intros i q (O1 & O2) Q. eapply st_weak; [eapply st_sdti; [exact O1|exact O2|eapply B_self; exact Q]|]. intros b Hb. eapply sec_add; [exact Q|exact Hb].
  - destruct T as (_ & _ & _ & _ & T5). eapply Forall_impl; [|exact T5]. intros i (_ & _ & X1 & _ & _ & X2). auto.
  - constructor.
  - exact P.
Qed.

Lemma full_of b pid cc : (1 <= length b)%nat -> bytes b -> full (mkPsi b (length b) pid cc).
Proof. intros L H. split; [|split]; cbn [p_size p_buffer]; auto. Qed.
Lemma st_tdt m t pid cc dst : t < 2 ^ 64 -> bytes dst -> cc < 256 -> st (dbg m && address_over pid cc) (tdt_demux m t pid cc dst) (fun _ => True).
Proof.
  intros T D C. unfold tdt_demux, tdt_section.
  eapply st_seq with (Q := sect 8).
  - eapply st_seq; [apply st_psi_new; [reflexivity|lia]|]. intros p (P1 & P2). do 2 step. cbv zeta.
    match goal with H : B 3 ?x |- context[resize ?x 8 0] => pose proof (B_resize 3 x 5 H) as H8; rewrite (B_at _ _ H) in H8 end. change (3 + 5)%nat with 8%nat in H8.
    eapply st_seq; [apply st_mjd; exact T|]. intros ? _. step. eapply st_seq; [apply st_time6, cast32|]. intros ? _. step.
    apply st_ok. split; [cbn [with_buffer p_buffer]; assumption|exact P2].
  - intros p ((P0 & P1) & P2). cbv zeta. pose proof (eq_ind_r (fun n => (1 <= n)%nat) (le_n_S 0 7 (Nat.le_0_l 7)) P0) as L1. eapply st_then; [exact (st_demux m (mkPsi (p_buffer p) (length (p_buffer p)) pid cc) dst (full_of _ pid cc L1 P1) D C)|].
    intros [q d] _. apply st_ok. trivial.
Qed.
Lemma st_tot m t pid cc dst : tot_typed t -> bytes dst -> cc < 256 ->
  st (dbg m && (address_over pid cc || loop_over (tot_descs t))) (tot_demux m t pid cc dst) (fun _ => True).
Proof.
  intros (T1 & T2) D C. rewrite orb_comm, andb_orb_distrib_r. unfold tot_demux, tot_section.
  eapply st_bind with (Q := sec 3).
  - eapply st_seq; [apply st_psi_new; [reflexivity|lia]|]. intros p (P1 & P2). step. cbv zeta.
    match goal with H : B 10 ?x |- context[resize ?x 10 0] => pose proof (B_resize 10 x 0 H) as H8; rewrite (B_at _ _ H) in H8 end. change (10 + 0)%nat with 10%nat in H8.
    eapply st_seq; [apply st_mjd; exact T1|]. intros ? _. step. eapply st_seq; [apply st_time6, cast32|]. intros ? _. step. loop T2. step.
    apply st_ok. eapply sec_done; [exact P2|eassumption|lia].
  - intros p P. eapply st_seq; [apply st_finalize; exact P|]. intros q (Q1 & Q2 & Q3). cbv zeta.
    eapply st_then; [exact (st_demux m (mkPsi (p_buffer q) (length (p_buffer q)) pid cc) dst (full_of _ pid cc (Nat.le_trans _ _ _ Q1 Q2) Q3) D C)|].
    intros [r d] _. apply st_ok. trivial.
Qed.

(** ** what is appended leaves what was there *)
Definition ext (b0 r : list N) : Prop := exists x, r = b0 ++ x.
Definition K (b0 : list N) (e : res (list N)) : Prop := match e with Ok r => ext b0 r | _ => True end.
Lemma ext_refl b : ext b b. Proof. exists []. rewrite app_nil_r. reflexivity. Qed.
Lemma ext_trans a b c : ext a b -> ext b c -> ext a c. Proof. intros (x & ->) (y & ->). exists (x ++ y). rewrite app_assoc. reflexivity. Qed.
Lemma ext_app b0 b x : ext b0 b -> ext b0 (b ++ x). Proof. intros H. eapply ext_trans; [exact H|]. exists x. reflexivity. Qed.
Lemma ext_len b0 b : ext b0 b -> (length b0 <= length b)%nat. Proof. intros (x & ->). rewrite app_length. lia. Qed.
Lemma ext_resize b0 b k : ext b0 b -> ext b0 (resize b (length b + k) 0). Proof. intros H. rewrite resize_app. apply ext_app, H. Qed.
Lemma K_ok b0 r : ext b0 r -> K b0 (Ok r). Proof. auto. Qed.
Lemma K_val {A} b0 (e : res A) k : (forall a, K b0 (k a)) -> K b0 (bind e k). Proof. destruct e; cbn [bind K]; auto. Qed.
Lemma K_step b0 e k : K b0 e -> (forall a, ext b0 a -> K b0 (k a)) -> K b0 (bind e k). Proof. destruct e; cbn [bind K]; auto. Qed.
Lemma K_trans a b e : ext a b -> K b e -> K a e. Proof. intros H. destruct e; cbn [K]; auto. apply ext_trans. exact H. Qed.
Lemma K_set b0 b i v : ext b0 b -> (length b0 <= i)%nat -> K b0 (set b i v).
Proof.
  intros (x & ->) I. unfold set. destruct (Nat.ltb_spec i (length (b0 ++ x))); cbn [K]; [|trivial].
  rewrite firstn_app, firstn_all2 by lia. rewrite <- app_assoc. eexists. reflexivity.
Qed.
Lemma K_from b0 b i f : ext b0 b -> (length b0 <= i)%nat -> K b0 (on_from b i f).
Proof.
  intros (x & ->) I. unfold on_from, slice_from. destruct (i <=? length (b0 ++ x))%nat; cbn [bind K]; [|trivial].
  destruct (f (skipn i (b0 ++ x))); cbn [bind K]; [|trivial|trivial]. rewrite firstn_app, firstn_all2 by lia. rewrite <- app_assoc. eexists. reflexivity.
Qed.
Lemma K_text m t b0 b : ext b0 b -> K b0 (dvb_assemble m t b).
Proof. intros H. unfold dvb_assemble. apply K_val. intros a. apply K_ok, ext_app, H. Qed.
Lemma K_sized m t b0 b : ext b0 b -> K b0 (dvb_assemble_sized m t b).
Proof.
  intros H. unfold dvb_assemble_sized. cbv zeta. eapply K_step; [apply K_text, ext_app, H|]. intros a A. do 2 (apply K_val; intros ?). apply K_set; [exact A|apply ext_len, H].
Qed.
Ltac k1 := first [ apply K_set; [assumption | try (pose proof ext_len); repeat match goal with E : ext _ _ |- _ => apply ext_len in E end; lia]
                 | apply K_from; [assumption | repeat match goal with E : ext _ _ |- _ => apply ext_len in E end; lia]
                 | apply K_sized; assumption | apply K_text; assumption ].
Ltac ks := match goal with |- K _ (bind _ _) => first [ eapply K_step; [k1|]; intros ? ? | apply K_val; intros ? ] end.
Ltac kk := repeat ks; try k1; try (apply K_ok; repeat apply ext_app; assumption).
Lemma K_0A m items b0 : forall b, ext b0 b -> K b0 (x0A_items m items b).
Proof. induction items as [|i r IH]; intros b H; cbn [x0A_items]; [exact H|]. ks. apply IH, ext_app. assumption. Qed.
Lemma K_41 items b0 : forall b k, ext b0 b -> (length b0 <= k)%nat -> K b0 (x41_items items b k).
Proof. induction items as [|i r IH]; intros b k H L; cbn [x41_items]; [exact H|]. ks. ks. apply IH; [assumption|lia]. Qed.
Lemma K_83 items b0 : forall b k, ext b0 b -> (length b0 <= k)%nat -> K b0 (x83_items items b k).
Proof. induction items as [|i r IH]; intros b k H L; cbn [x83_items]; [exact H|]. ks. ks. apply IH; [assumption|lia]. Qed.
Lemma K_4E m items b0 : forall b, ext b0 b -> K b0 (x4E_items m items b).
Proof. induction items as [|[x y] r IH]; intros b H; cbn [x4E_items]; [exact H|]. ks. ks. apply IH. assumption. Qed.
Lemma K_58 m items b0 : forall b, ext b0 b -> K b0 (x58_items m items b).
Proof.
  induction items as [|i r IH]; intros b H; cbn [x58_items]; [exact H|]. ks. cbv zeta. pose proof (ext_len _ _ H0) as L. pose proof (ext_resize _ _ 10 H0) as H1.
  set (n := length a) in *. clearbody n. clear H0. repeat ks. apply IH. assumption.
Qed.
Lemma K_desc m d b : K b (desc_assemble m d b).
Proof.
  pose proof (ext_refl b) as R. destruct d; cbn [desc_assemble].
  - unfold x09_assemble. cbv zeta. pose proof (ext_resize _ _ 6 R). kk.
  - unfold x0A_assemble. cbv zeta. apply K_0A. repeat apply ext_app. exact R.
  - unfold x0E_assemble. cbv zeta. pose proof (ext_resize _ _ 5 R). kk.
  - unfold x40_assemble. cbv zeta. apply K_sized. repeat apply ext_app. exact R.
  - unfold x41_assemble. cbv zeta. pose proof (ext_resize _ _ (desc_size (D41 items)) R). ks. ks. apply K_41; [assumption|lia].
  - unfold x43_assemble. cbv zeta. pose proof (ext_resize _ _ 13 R). kk.
  - unfold x44_assemble. cbv zeta. pose proof (ext_resize _ _ 13 R). kk.
  - unfold x48_assemble. cbv zeta. eapply K_step; [apply K_sized; repeat apply ext_app; exact R|]. intros ? ?. kk.
  - unfold x4D_assemble. cbv zeta. eapply K_step; [apply K_text; repeat apply ext_app; exact R|]. intros ? ?. kk.
  - unfold x4E_assemble. cbv zeta. destruct (255 <? desc_size (D4E d) - 2)%nat; [exact R|].
    eapply K_step; [apply K_text; repeat apply ext_app; exact R|]. intros a A. eapply K_step; [apply K_4E, ext_app, A|]. intros c E. pose proof (ext_len _ _ A). kk.
  - unfold x52_assemble. cbn [K]. repeat apply ext_app. exact R.
  - unfold x58_assemble. cbv zeta. apply K_58. repeat apply ext_app. exact R.
  - unfold x5A_assemble. cbv zeta.
    assert (R2 : ext b ((b ++ [0x5A]) ++ [len_byte 13])) by (repeat apply ext_app; exact R). pose proof (ext_len _ _ R2) as L.
    pose proof (ext_resize _ _ 11 R2). set (c := (b ++ [0x5A]) ++ [len_byte 13]) in *. clearbody c. set (n := length c) in *. clearbody n. kk.
  - unfold x83_assemble. cbv zeta. pose proof (ext_resize _ _ (desc_size (D83 items)) R). ks. ks. apply K_83; [assumption|lia].
  - unfold raw_assemble. destruct (255 <? length (raw_data d))%nat; [exact R|apply ext_app, R].
Qed.
Lemma K_descs m ds b0 : forall b, ext b0 b -> K b0 (descs_bytes m ds b).
Proof.
  induction ds as [|d r IH]; intros b H; cbn [descs_bytes]; [exact H|]. eapply K_step; [eapply K_trans; [exact H|apply K_desc]|]. intros a A. apply IH, A.
Qed.
Lemma K_niti m i b : K b (nit_item_assemble m i b).
Proof.
  unfold nit_item_assemble. cbv zeta. pose proof (ext_resize _ _ 6 (ext_refl b)). ks. ks. unfold descs_assemble. cbv zeta.
  pose proof (K_descs m (niti_descs i) b a0 ltac:(assumption)) as D. destruct (descs_bytes m (niti_descs i) a0); cbn [bind]; [|exact I|exact I]. cbn [K] in D. k1.
Qed.

(** ** NIT: the length of the network loop never exceeds the section *)
Definition loop_len (b : list N) : nat := N.to_nat (N.land (N.lor (nth 8 b 0 * 256) (nth 9 b 0)) 0x0FFF).
Definition nsec (p : psi) : Prop := sec 12 p /\ (12 + loop_len (p_buffer p) <= length (p_buffer p))%nat.

Ltac ten b L := do 10 (destruct b as [|? b]; [cbn [length] in L; exfalso; lia|]).
Lemma st_get16 n b : B n b -> (10 <= n)%nat -> st false (get_u16_at b 8) (fun v => N.to_nat (N.land v 0x0FFF) = loop_len b).
Proof.
  intros (L & H) N. ten b L. apply st_ok. unfold loop_len. cbn [nth]. do 2 f_equal. unfold shlw.
  do 9 (apply bytes_cons in H; destruct H as (? & H)). rewrite N.shiftl_mul_pow2. change (2 ^ 8) with 256. rewrite N.mod_small by (unfold U16; lia). reflexivity.
Qed.
Lemma loop_len_app b x : (10 <= length b)%nat -> loop_len (b ++ x) = loop_len b.
Proof. intros L. ten b L. reflexivity. Qed.
Lemma to_nat_le a b : a <= b -> (N.to_nat a <= N.to_nat b)%nat. Proof. lia. Qed.
Lemma loop_len_set n b v : B n b -> (10 <= n)%nat -> st false (set_u16_at b 8 (N.lor 0xF000 (cast U16 v))) (fun r => B n r /\ (loop_len r <= N.to_nat v)%nat).
Proof.
  intros H N. pose proof (st_u16 n b 8 (N.lor 0xF000 (cast U16 v)) H ltac:(lia)) as (r & E & R). exists r. split; [exact E|]. split; [exact R|].
  destruct H as (L & H). ten b L. unfold set_u16_at, on_from, slice_from, set_u16, set in E. cbn [length Nat.leb Nat.ltb skipn firstn bind app] in E. injection E as <-.
  unfold loop_len. cbn [nth]. apply to_nat_le.
  set (w := N.lor 61440 (cast U16 v)). assert (Z : cast U8 w < 2 ^ 8) by apply cast8.
  rewrite (lor_add 8); [|change (2 ^ 8) with 256; apply N.mod_mul; discriminate|exact Z].
  change 0x0FFF with (N.ones 12). rewrite N.land_ones. unfold cast, U8. rewrite N.shiftr_div_pow2. change (2 ^ 8) with 256. change (2 ^ 12) with 4096.
  assert (W : w mod 4096 = cast U16 v mod 4096).
  { unfold w. change 4096 with (2 ^ 12). rewrite <- !N.land_ones, N.land_lor_distr_l. reflexivity. }
  assert (V : cast U16 v <= v) by (unfold cast, U16; apply N.mod_le; discriminate).
  assert (X : (w / 256 mod 256 * 256 + w mod 256) mod 4096 = w mod 4096) by dlia. rewrite X, W.
  eapply N.le_trans; [apply N.mod_le; discriminate|exact V].
Qed.
Lemma st_nit_init m t first : nit_typed t -> st (dbg m && (first && loop_over (nit_descs t))) (nit_init m t first) nsec.
Proof.
  intros (T1 & T2 & T3 & T4 & T5). destruct first.
  - unfold nit_init. cbn [andb]. eapply st_seq; [apply st_psi_new; [exact T1|lia]|]. intros p (P1 & P2). do 2 step.
    eapply st_then with (Q := fun b => B (10 + sum written (nit_descs t)) b /\ (loop_len b <= sum written (nit_descs t))%nat).
    + unfold descs_assemble. cbv zeta. eapply st_then.
      * eapply st_then; [apply st_descs_bytes; [exact T4|eassumption]|]. intros b Hb.
        apply (st_ok (b, (length b - length a0)%nat) (fun r => B (10 + sum written (nit_descs t)) (fst r) /\ snd r = sum written (nit_descs t))).
        cbn [fst snd]. split; [exact Hb|]. pose proof (B_at _ _ Hb). match goal with X : B 10 a0 |- _ => pose proof (B_at _ _ X) end. lia.
      * intros [b k] (Hb & Hk). cbn [fst snd] in *. eapply st_weak; [apply loop_len_set; [exact Hb|lia]|]. intros r (R1 & R2). split; [exact R1|]. lia.
    + intros b (Hb & Hl). apply st_ok.
      assert (H12 : B (10 + sum written (nit_descs t) + 1 + 1) ((b ++ [0]) ++ [0])) by (apply B_push; [apply B_push; [exact Hb|reflexivity]|reflexivity]).
      split; [eapply sec_done; [exact P2|exact H12|lia]|]. cbn [with_buffer p_buffer]. destruct H12 as (L12 & _). rewrite L12. pose proof (B_at _ _ Hb).
      rewrite !loop_len_app by (rewrite ?app_length; lia). lia.
  - cbn [andb]. rewrite andb_false_r.
    assert (E : nit_init m t false = nit_init m (mkNit (nit_table t) (nit_version t) (nit_network t) [] []) false) by reflexivity.
    rewrite E, nit_init_spec by (split; [constructor|cbn; apply (Nat.lt_le_trans _ 1); [apply Nat.lt_0_1|apply Nat.leb_le; vm_compute; reflexivity]]).
    apply st_ok. cbv zeta. cbn [nit_table nit_version nit_network nit_descs]. unfold head8.
    split; [split; [|split]|]; [cbn; apply Nat.le_refl| |reflexivity|cbn; apply Nat.le_refl].
    cbn [p_buffer app]. repeat (apply bytes_cons; split); try apply cast8; try exact T1; try reflexivity; try constructor.
    apply lor8; [apply lor8; [reflexivity|apply land_lt_r; reflexivity]|reflexivity].
Qed.
Lemma st_nit_close m p : nsec p -> st false (nit_close m p) (sec 8).
Proof.
  intros ((L & H & Z) & N). unfold nit_close. assert (HB : B (length (p_buffer p)) (p_buffer p)) by (split; [reflexivity|exact H]).
  eapply st_seq; [eapply st_get16; [exact HB|lia]|]. intros v V. cbv zeta. cbv beta in V. rewrite V. unfold subw.
  destruct (N.leb_spec 12 (N.of_nat (length (p_buffer p)))); [|lia]. cbn [bind].
  destruct (N.leb_spec (N.of_nat (loop_len (p_buffer p))) (N.of_nat (length (p_buffer p)) - 12)); [|lia]. cbn [bind].
  step. apply st_ok. eapply sec_done; [exact Z|eassumption|lia].
Qed.
Lemma st_nit_close_all m l : Forall nsec l -> st false (nit_close_all m l) (fun r => Forall (sec 8) r /\ length r = length l).
Proof.
  induction l as [|p l IH]; intros H; cbn [nit_close_all]; [apply st_ok; split; [constructor|reflexivity]|]. inversion H; subst.
  eapply st_seq; [apply st_nit_close; assumption|]. intros q Q. eapply st_seq; [apply IH; assumption|]. intros r (R1 & R2). apply st_ok. split; [constructor; assumption|cbn [length]; lia].
Qed.
Lemma st_nit m t pid cc dst : nit_typed t -> bytes dst -> cc < 256 ->
  st (dbg m && (address_over pid cc || loop_over (nit_descs t) || existsb (fun i => loop_over (niti_descs i)) (nit_items t))) (nit_demux m t pid cc dst) (fun _ => True).
Proof.
  intros T D C. rewrite orb_swap. unfold nit_demux. apply st_table_of; [|exact D|exact C]. unfold nit_sections. rewrite andb_orb_distrib_r.
  eapply st_bind; [exact (st_nit_init m t true T)|]. intros p P.
  eapply st_then.
  - eapply (st_pack _ _ _ _ (fun i => descs_typed (niti_descs i)) (fun i => loop_over (niti_descs i)) nsec).
    + pose proof (st_nit_init m t false T) as H. cbn [andb] in H. rewrite andb_false_r in H. exact H.
    + intros i q O2 (Q & QL). pose proof (K_niti m i (p_buffer q)) as KN. pose proof (st_niti m i _ _ O2 (B_self _ _ Q)) as SN. unfold st in *.
      destruct (dbg m && loop_over (niti_descs i)); [exact SN|]. destruct SN as (b & E & Hb). exists b. split; [exact E|]. rewrite E in KN. cbn [K] in KN.
      split; [eapply sec_add; [exact Q|exact Hb]|]. cbn [with_buffer p_buffer]. destruct KN as (x & ->). destruct Q as (Q1 & _). rewrite loop_len_app by lia. rewrite app_length. lia.
    + destruct T as (_ & _ & _ & _ & T5). eapply Forall_impl; [|exact T5]. intros i (_ & _ & X2). auto.
    + constructor.
    + exact P.
  - intros l (L1 & L2). eapply st_weak; [apply st_nit_close_all; exact L1|]. intros r (R1 & R2). split; [exact R1|]. destruct r; [destruct l; [congruence|discriminate]|discriminate].
Qed.
