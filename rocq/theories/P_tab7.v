(** Proofs about table parsers: exactly which accepted sections are read and which abort. *)
From Verif Require Import Prelude Layout Facts Facts2 S_ts S_crc S_utils S_psi M_bytes M_ts M_crc M_utils M_psi M_drive M_recv M_desc S_desc
  M_tables S_tables P_bytes P_crc P_utils P_psi P_mux P_mux2 P_sect P_mux3 P_desc P_desc2 P_desc3 W_psi W_desc P_tab P_tab2 P_tab6.

(** ** with overflow checks *)
Lemma loop_debug l old out : bytes l -> descs_parse Debug old l = Ok out -> exists ds, out = old ++ ds /\ loop_reads l ds.
Proof.
  intros Hb E. destruct (decompose l Hb) as (recs & tail & -> & I & R). rewrite descs_parse_records in E by (try assumption; apply records_len; assumption).
  apply parse_each_inv in E as (ds & -> & F). exists ds. split; [reflexivity|]. exists recs, tail. repeat split; try assumption.
  clear - F R. induction F as [|r d recs ds H F IH]; [constructor|]. inversion R as [|? ? (R1 & R2 & R3) R']; subst.
  constructor; [|apply IH; assumption]. apply (proj1 (parse_debug (fst r) (snd r) R2 R3)). assumption.
Qed.
Lemma list_inv {A} (parse : list N -> res A) recs : forall l, parse_list parse recs = Ok l -> Forall2 (fun r i => parse r = Ok i) recs l.
Proof.
  induction recs as [|r recs IH]; intros l E; cbn [parse_list] in E; [injection E as <-; constructor|].
  apply bind_inv in E as (i & E1 & E). apply bind_inv in E as (l' & E2 & E). injection E as <-. constructor; [assumption|apply IH; assumption].
Qed.
Lemma items_debug {A} h (parse : list N -> res A) (rd : list N -> A -> Prop) l old out : (2 <= h)%nat -> bytes l ->
  (forall r i, bytes r -> entry h r -> parse r = Ok i -> rd r i) -> parse_items h parse l old = Ok out ->
  exists items, out = old ++ items /\ entries_read h rd l items.
Proof.
  intros Hh Hb Hi E. destruct (items_split h parse l old Hh Hb) as (recs & tail & El & C & F & Ep). rewrite Ep in E.
  apply bind_inv in E as (items & E & E'). injection E' as <-. exists items. split; [reflexivity|]. exists recs, tail.
  repeat split; try assumption; [eapply Forall_impl; [|exact F]; intros r Hr; apply Hr|].
  apply list_inv in E. clear - E F Hi. induction E as [|r i recs items H E IH]; [constructor|]. inversion F as [|? ? [F1 F2] F']; subst.
  constructor; [apply Hi; assumption|apply IH; assumption].
Qed.
Lemma pmt_item_debug r i : bytes r -> entry 5 r -> pmt_item_parse Debug r = Ok i -> pmt_read r i.
Proof.
  intros Hb He E. rewrite pmt_item_run in E by assumption. apply bind_inv in E as (ds & E & E'). injection E' as <-.
  apply loop_debug in E as (ds' & -> & R); [|apply bytes_skipn; assumption]. exists ds'. split; [reflexivity|assumption].
Qed.
Lemma nit_item_debug r i : bytes r -> entry 6 r -> nit_item_parse Debug r = Ok i -> nit_read r i.
Proof.
  intros Hb He E. rewrite nit_item_run in E by assumption. apply bind_inv in E as (ds & E & E'). injection E' as <-.
  apply loop_debug in E as (ds' & -> & R); [|apply bytes_skipn; assumption]. exists ds'. split; [reflexivity|assumption].
Qed.
Lemma sdt_item_debug r i : bytes r -> entry 5 r -> sdt_item_parse Debug r = Ok i -> sdt_read r i.
Proof.
  intros Hb He E. rewrite sdt_item_run in E by assumption. apply bind_inv in E as (ds & E & E'). injection E' as <-.
  apply loop_debug in E as (ds' & -> & R); [|apply bytes_skipn; assumption]. exists ds'. split; [reflexivity|assumption].
Qed.
Lemma mjd_debug d v : d < 65536 -> from_mjd Debug d = Ok v -> MJD_EPOCH <= d /\ v = (d - MJD_EPOCH) * 86400.
Proof.
  intros Hd. rewrite from_mjd_spec by assumption. unfold MJD_EPOCH. destruct (N.leb_spec 40587 d); [|discriminate].
  intros E. injection E as <-. split; [assumption|reflexivity].
Qed.
Lemma bcd_debug t v : t < 2 ^ 24 -> u32_from_bcd_time Debug t = Ok v -> nibs_ok 6 t = true /\ v = seconds t.
Proof.
  intros Ht. rewrite u32_from_bcd_time_spec by (change (2 ^ 24) with 16777216 in Ht; lia). cbv zeta. destruct (nibs_ok 6 t); [|discriminate].
  intros E. injection E as <-. split; reflexivity.
Qed.
Lemma eit_item_debug r i : bytes r -> entry 12 r -> eit_item_parse Debug r = Ok i -> eit_read r i.
Proof.
  intros Hb He E. rewrite eit_item_run in E by assumption.
  apply bind_inv in E as (d & E1 & E). apply bind_inv in E as (t & E2 & E). apply bind_inv in E as (st & E3 & E).
  apply bind_inv in E as (u & E4 & E). apply bind_inv in E as (ds & E5 & E'). injection E' as <-.
  apply mjd_debug in E1 as [H1 ->]; [|apply (field_lt r 16 16)]. apply bcd_debug in E2 as [H2 ->]; [|apply field24_lt].
  apply bcd_debug in E4 as [H4 ->]; [|apply field24_lt]. rewrite time_sum in E3 by apply field16_lt. injection E3 as <-.
  apply loop_debug in E5 as (ds' & -> & R); [|apply bytes_skipn; assumption]. exists ds'. repeat split; assumption.
Qed.

(** the outcome of reading, given what is specified *)
Definition outcome_is {T} (r : res T) (rd : T -> Prop) (add : T -> T) : Prop :=
  (forall u, r = Ok u <-> exists t, rd t /\ u = add t) /\ (r = Panic <-> forall t, ~ rd t).
Lemma outcome_intro {T} (r : res T) (rd : T -> Prop) (add : T -> T) : ends r -> (forall t, rd t -> r = Ok (add t)) ->
  (forall u, r = Ok u -> exists t, rd t /\ u = add t) -> outcome_is r rd add.
Proof.
  intros He H1 H2. split.
  - intros u. split; [apply H2|]. intros (t & R & ->). apply H1, R.
  - split.
    + intros E t R. rewrite (H1 t R) in E. discriminate.
    + intros N. destruct r as [u| |] eqn:Er; [exfalso|reflexivity|exfalso; apply He; reflexivity].
      destruct (H2 u eq_refl) as (t & R & _). exact (N t R).
Qed.

Lemma sdt_debug old p s : has p s -> sdt_ids (field s 0 8) -> (15 <= length s)%nat ->
  outcome_is (sdt_parse Debug old p) (sdt_reads s) (sdt_add old).
Proof.
  intros H T L. apply outcome_intro; [eapply sdt_ends; eassumption|intros t R; eapply sdt_parse_section; eassumption|].
  intros u E. rewrite (sdt_run Debug old p s H T L) in E. apply bind_inv in E as (it & E & E'). injection E' as <-.
  apply (items_debug 5 _ sdt_read) in E as (items & -> & R); [|lia|apply inner_bytes, (has_bytes p s H)|apply sdt_item_debug].
  eexists. split; [exists items; split; [reflexivity|assumption]|reflexivity].
Qed.
Lemma eit_debug old p s : has p s -> eit_ids (field s 0 8) -> (18 <= length s)%nat ->
  outcome_is (eit_parse Debug old p) (eit_reads s) (eit_add old).
Proof.
  intros H T L. apply outcome_intro; [eapply eit_ends; eassumption|intros t R; eapply eit_parse_section; eassumption|].
  intros u E. rewrite (eit_run Debug old p s H T L) in E. apply bind_inv in E as (it & E & E'). injection E' as <-.
  apply (items_debug 12 _ eit_read) in E as (items & -> & R); [|lia|apply inner_bytes, (has_bytes p s H)|apply eit_item_debug].
  eexists. split; [exists items; split; [reflexivity|assumption]|reflexivity].
Qed.
Lemma body_inv p s a ptr : has p s -> body_from p a = Ok ptr -> (a + 4 <= length s)%nat /\ ptr = inner a s.
Proof.
  intros H E. destruct (le_lt_dec (a + 4) (length s)) as [L|L].
  - rewrite (has_body p s H a L) in E. injection E as <-. split; [assumption|reflexivity].
  - rewrite (has_body_out p s H a L) in E. discriminate.
Qed.
Lemma nit_debug old p s : has p s -> nit_ids (field s 0 8) -> (16 <= length s)%nat ->
  outcome_is (nit_parse Debug old p) (nit_reads s) (nit_add old).
Proof.
  intros H T L. apply outcome_intro; [eapply nit_ends; eassumption|intros t R; eapply nit_parse_section; eassumption|].
  intros u E. rewrite (nit_run Debug old p s H T L) in E. cbv zeta in E. apply bind_inv in E as (d & E1 & E).
  apply bind_inv in E as (ds & E2 & E). apply bind_inv in E as (ptr & E3 & E). apply bind_inv in E as (it & E4 & E'). injection E' as <-.
  set (n := N.to_nat (field s 68 12)) in *.
  apply (body_inv p s) in E3 as [L3 ->]; [|assumption]. rewrite (has_slice p s H 10 n) in E1 by lia. assert (d = firstn n (skipn 10 s)) by congruence. subst d.
  apply loop_debug in E2 as (ds' & -> & R2); [|apply bytes_firstn, bytes_skipn, (has_bytes p s H)].
  apply (items_debug 6 _ nit_read) in E4 as (items & -> & R); [|lia|apply inner_bytes, (has_bytes p s H)|apply nit_item_debug].
  eexists. split; [exists ds', items; split; [reflexivity|fold n; repeat split; [lia|assumption|assumption]]|reflexivity].
Qed.
Lemma pmt_debug old p s : has p s -> pmt_ids (field s 0 8) -> (16 <= length s)%nat ->
  outcome_is (pmt_parse Debug old p) (pmt_seen s) (pmt_add old).
Proof.
  intros H T L. apply outcome_intro; [eapply pmt_ends; eassumption|intros t R; eapply pmt_parse_section; eassumption|].
  intros u E. rewrite (pmt_run Debug old p s H T L) in E. cbv zeta in E. apply bind_inv in E as (d & E1 & E).
  apply bind_inv in E as (ds & E2 & E). apply bind_inv in E as (ptr & E3 & E). apply bind_inv in E as (it & E4 & E'). injection E' as <-.
  set (n := N.to_nat (field s 84 12)) in *.
  apply (body_inv p s) in E3 as [L3 ->]; [|assumption]. rewrite (has_slice p s H 11 n) in E1 by lia. assert (d = firstn n (skipn 11 s)) by congruence. subst d.
  apply loop_debug in E2 as (ds' & -> & R2); [|apply bytes_firstn, bytes_skipn, (has_bytes p s H)].
  apply (items_debug 5 _ pmt_read) in E4 as (items & -> & R); [|lia|apply inner_bytes, (has_bytes p s H)|apply pmt_item_debug].
  eexists. split; [exists ds', items; split; [reflexivity|fold n; repeat split; [lia|assumption|assumption]]|reflexivity].
Qed.
Lemma slice_inv {A} (l : list A) a b r : slice l a b = Ok r -> (a <= b <= length l)%nat.
Proof. unfold slice. destruct (Nat.leb_spec a b), (Nat.leb_spec b (length l)); cbn [andb]; try discriminate. lia. Qed.
(** here the buffer ends with the section *)
Lemma tot_debug old p s : has p s -> p_buffer p = s -> tot_ids (field s 0 8) -> (14 <= length s)%nat ->
  outcome_is (tot_parse Debug old p) (tot_reads s) (tot_add old).
Proof.
  intros H Hp T L. apply outcome_intro; [eapply tot_ends; eassumption|intros t R; eapply tot_parse_section; eassumption|].
  intros u E. rewrite (tot_run Debug old p s H T L) in E. cbv zeta in E.
  apply bind_inv in E as (d & E1 & E). apply bind_inv in E as (t & E2 & E). apply bind_inv in E as (st & E3 & E).
  apply bind_inv in E as (l & E4 & E). apply bind_inv in E as (ds & E5 & E'). injection E' as <-.
  apply mjd_debug in E1 as [H1 ->]; [|apply (field_lt s 24 16)]. apply bcd_debug in E2 as [H2 ->]; [|apply field24_lt].
  rewrite time_sum in E3 by apply field16_lt. injection E3 as <-. set (n := N.to_nat (field s 68 12)) in *.
  pose proof (slice_inv _ _ _ _ E4) as L4. rewrite Hp in L4. rewrite (has_slice p s H 10 n) in E4 by lia. assert (l = firstn n (skipn 10 s)) by congruence. subst l.
  apply loop_debug in E5 as (ds' & -> & R2); [|apply bytes_firstn, bytes_skipn, (has_bytes p s H)].
  eexists. split; [exists ds'; split; [reflexivity|fold n; repeat split; [assumption|assumption|lia|assumption]]|reflexivity].
Qed.

(** ** without: an abort comes from a descriptor that points outside itself, or from the length
    of a descriptor loop *)
(** the loop has a complete record that points outside itself *)
Definition loop_oob (l : list N) : Prop :=
  exists recs tail t b, l = loop_of recs ++ tail /\ incomplete tail /\ In (t, b) recs /\ oob t b.
(** [r] is one of the complete entries in [l] *)
Definition entry_of (h : nat) (l r : list N) : Prop :=
  exists recs tail, l = concat recs ++ tail /\ cut_off h tail /\ Forall (entry h) recs /\ In r recs.

Lemma loop_release l old : bytes l ->
  (descs_parse Release old l = Panic <-> loop_oob l) /\ (~ loop_oob l -> exists ds, descs_parse Release old l = Ok (old ++ ds)).
Proof.
  intros Hb.
  assert (B : loop_oob l -> descs_parse Release old l = Panic).
  { intros (recs & tail & t & b & -> & I & Hin & O).
    apply bytes_app in Hb as [Hb _]. pose proof (loop_bytes recs Hb) as F.
    rewrite descs_parse_records; [|eapply Forall_impl; [|exact F]; intros r [_ Hr]; exact Hr|assumption].
    apply parse_each_panic; [|exists t, b; split; [assumption|]].
    - clear - Hb F. induction recs as [|[t b] recs IH]; [constructor|]. inversion F; subst.
      change (loop_of ((t, b) :: recs)) with (tlv t b ++ loop_of recs) in Hb. apply bytes_app in Hb as [H3 H4].
      constructor; [|apply IH; assumption]. apply bytes_cons in H3 as [H3 _]. cbn [fst snd] in *. tauto.
    - rewrite Forall_forall in F. destruct (F _ Hin) as [F1 F2]. apply (proj1 (parse_release t b F1 F2)). assumption. }
  destruct (decompose l Hb) as (recs & tail & El & I & R).
  assert (G : (exists ds, descs_parse Release old l = Ok (old ++ ds)) \/ loop_oob l).
  { assert (D : (exists t b, In (t, b) recs /\ oob t b) \/ (forall t b, In (t, b) recs -> ~ oob t b)).
    { clear - R. induction R as [|[t b] recs (R1 & R2 & R3) R IH]; [right; intros ? ? []|]. cbn [fst snd] in *.
      destruct (oob_dec t b R2) as [O|O]; [left; exists t, b; split; [left; reflexivity|assumption]|].
      destruct IH as [(t' & b' & H1 & H2)|IH]; [left; exists t', b'; split; [right; assumption|assumption]|].
      right. intros t' b' [E|E]; [injection E as <- <-; assumption|apply IH; assumption]. }
    destruct D as [(t & b & H1 & H2)|D]; [right; exists recs, tail, t, b; repeat split; assumption|left].
    rewrite El, descs_parse_records by (try assumption; apply records_len; assumption).
    assert (X : exists ds, Forall2 (fun r d => desc_parse Release (tlv (fst r) (snd r)) = Ok d) recs ds).
    { clear - R D. induction R as [|[t b] recs (R1 & R2 & R3) R IH]; [exists []; constructor|]. cbn [fst snd] in *.
      destruct (proj2 (parse_release t b R2 R3) (D t b ltac:(left; reflexivity))) as [d Ed].
      destruct IH as [ds IH]; [intros; apply D; right; assumption|]. exists (d :: ds). constructor; assumption. }
    destruct X as [ds X]. exists ds. apply parse_each_ok. assumption. }
  split; [|intros NO; destruct G as [G|G]; [assumption|contradiction]].
  split; [|exact B]. intros E. destruct G as [[ds G]|G]; [congruence|assumption].
Qed.

Lemma bind_panic {A B} (e : res A) (k : A -> B) : (x <- e ;; Ok (k x)) = Panic <-> e = Panic.
Proof. destruct e; cbn [bind]; split; congruence. Qed.

Lemma items_release {A} h (parse : list N -> res A) (bad : list N -> Prop) l old : (2 <= h)%nat -> bytes l ->
  (forall r, bytes r -> entry h r -> parse r = Panic <-> bad r) -> (forall r, bytes r -> entry h r -> ends (parse r)) ->
  parse_items h parse l old = Panic <-> exists r, entry_of h l r /\ bad r.
Proof.
  intros Hh Hb Hp He.
  assert (G : forall recs, Forall (fun r => bytes r /\ entry h r) recs -> parse_list parse recs = Panic <-> exists r, In r recs /\ bad r).
  { induction 1 as [|r recs [F1 F2] F IH]; cbn [parse_list]; [split; [discriminate|intros (r & [] & _)]|].
    pose proof (Hp r F1 F2) as Pr. pose proof (He r F1 F2) as Er. destruct (parse r) as [i| |] eqn:E; cbn [bind].
    - rewrite bind_panic, IH. split; intros (r' & H1 & H2); exists r'; [split; [right; assumption|assumption]|].
      destruct H1 as [<-|H1]; [apply Pr in H2; discriminate|split; assumption].
    - split; [|reflexivity]. intros _. exists r. split; [left; reflexivity|apply Pr; reflexivity].
    - exfalso. apply Er. reflexivity. }
  split.
  - destruct (items_split h parse l old Hh Hb) as (recs & tail & El & C & F & Ep). rewrite Ep, bind_panic, (G recs F).
    intros (r & H1 & H2). exists r. split; [|assumption]. exists recs, tail. repeat split; try assumption.
    eapply Forall_impl; [|exact F]. intros x Hx. apply Hx.
  - intros (r & (recs & tail & El & C & F & Hin) & Hbad). subst l. apply bytes_app in Hb as [Hb1 Hb2].
    assert (FB : Forall (fun r => bytes r /\ entry h r) recs).
    { apply concat_bytes in Hb1. rewrite Forall_forall in *. intros x Hx. split; [apply Hb1|apply F]; assumption. }
    rewrite parse_items_records by assumption. rewrite bind_panic, (G recs FB). exists r. split; assumption.
Qed.

Definition entry_oob (h : nat) (r : list N) : Prop := loop_oob (skipn h r).
Lemma sdt_item_release r : bytes r -> entry 5 r -> sdt_item_parse Release r = Panic <-> entry_oob 5 r.
Proof. intros Hb He. rewrite sdt_item_run by assumption. rewrite bind_panic. apply loop_release, bytes_skipn, Hb. Qed.
Lemma pmt_item_release r : bytes r -> entry 5 r -> pmt_item_parse Release r = Panic <-> entry_oob 5 r.
Proof. intros Hb He. rewrite pmt_item_run by assumption. rewrite bind_panic. apply loop_release, bytes_skipn, Hb. Qed.
Lemma nit_item_release r : bytes r -> entry 6 r -> nit_item_parse Release r = Panic <-> entry_oob 6 r.
Proof. intros Hb He. rewrite nit_item_run by assumption. rewrite bind_panic. apply loop_release, bytes_skipn, Hb. Qed.
Lemma mjd_release d : d < 65536 -> exists v, from_mjd Release d = Ok v.
Proof. intros H. rewrite from_mjd_spec by assumption. destruct (_ <=? _); eauto. Qed.
Lemma bcd_release t : t < 2 ^ 24 -> exists v, u32_from_bcd_time Release t = Ok v.
Proof. intros H. rewrite u32_from_bcd_time_spec by (change (2 ^ 24) with 16777216 in H; lia). cbv zeta. eauto. Qed.
Lemma addw_release w a b : exists v, addw w Release a b = Ok v.
Proof. unfold addw. destruct (_ <? _); eauto. Qed.
Lemma eit_item_release r : bytes r -> entry 12 r -> eit_item_parse Release r = Panic <-> entry_oob 12 r.
Proof.
  intros Hb He. rewrite eit_item_run by assumption.
  destruct (mjd_release (field r 16 16) (field_lt r 16 16)) as [d ->]. cbn [bind].
  destruct (bcd_release (field r 32 24) (field24_lt _ _)) as [t ->]. cbn [bind].
  destruct (addw_release U64 d t) as [st ->]. cbn [bind].
  destruct (bcd_release (field r 56 24) (field24_lt _ _)) as [u ->]. cbn [bind].
  rewrite bind_panic. apply loop_release, bytes_skipn, Hb.
Qed.

Lemma sdt_release old p s : has p s -> sdt_ids (field s 0 8) -> (15 <= length s)%nat ->
  sdt_parse Release old p = Panic <-> exists r, entry_of 5 (inner 11 s) r /\ entry_oob 5 r.
Proof.
  intros H T L. rewrite (sdt_run Release old p s H T L), bind_panic.
  apply items_release; [lia|apply inner_bytes, (has_bytes p s H)|apply sdt_item_release|apply sdt_item_ends].
Qed.
Lemma eit_release old p s : has p s -> eit_ids (field s 0 8) -> (18 <= length s)%nat ->
  eit_parse Release old p = Panic <-> exists r, entry_of 12 (inner 14 s) r /\ entry_oob 12 r.
Proof.
  intros H T L. rewrite (eit_run Release old p s H T L), bind_panic.
  apply items_release; [lia|apply inner_bytes, (has_bytes p s H)|apply eit_item_release|apply eit_item_ends].
Qed.
Lemma nit_release old p s : has p s -> nit_ids (field s 0 8) -> (16 <= length s)%nat ->
  let n := N.to_nat (field s 68 12) in
  nit_parse Release old p = Panic <->
    (length s < 16 + n)%nat \/ loop_oob (firstn n (skipn 10 s)) \/ exists r, entry_of 6 (inner (12 + n) s) r /\ entry_oob 6 r.
Proof.
  intros H T L n. rewrite (nit_run Release old p s H T L). cbv zeta. fold n. destruct (le_lt_dec (16 + n) (length s)) as [L2|L2].
  - rewrite (has_slice p s H 10 n) by lia. cbn [bind].
    destruct (loop_release (firstn n (skipn 10 s)) (nit_descs old) (bytes_firstn _ _ (bytes_skipn _ _ (has_bytes p s H)))) as [P1 P2].
    destruct (descs_parse Release (nit_descs old) (firstn n (skipn 10 s))) as [ds| |] eqn:E; cbn [bind].
    + rewrite (has_body p s H (12 + n)) by lia. cbn [bind]. rewrite bind_panic.
      rewrite (items_release 6 _ (entry_oob 6)); [|lia|apply inner_bytes, (has_bytes p s H)|apply nit_item_release|apply nit_item_ends].
      split; [auto|]. intros [X|[X|X]]; [lia|apply P1 in X; discriminate|assumption].
    + split; [|reflexivity]. intros _. right. left. apply P1. reflexivity.
    + exfalso. apply (ends_descs Release (nit_descs old) (firstn n (skipn 10 s))); [apply bytes_firstn, bytes_skipn, (has_bytes p s H)|assumption].
  - split; [auto|]. intros _. pose proof (nit_ends Release old p s H T L) as He. rewrite (nit_run Release old p s H T L) in He. cbv zeta in He. fold n in He.
    destruct (slice (p_buffer p) 10 (10 + n)) as [d| |]; cbn [bind] in He |- *; [|reflexivity|exfalso; apply He; reflexivity].
    destruct (descs_parse Release (nit_descs old) d) as [ds| |]; cbn [bind] in He |- *; [|reflexivity|exfalso; apply He; reflexivity].
    rewrite (has_body_out p s H (12 + n)) by lia. reflexivity.
Qed.
Lemma pmt_release old p s : has p s -> pmt_ids (field s 0 8) -> (16 <= length s)%nat ->
  let n := N.to_nat (field s 84 12) in
  pmt_parse Release old p = Panic <->
    (length s < 16 + n)%nat \/ loop_oob (firstn n (skipn 11 s)) \/ exists r, entry_of 5 (inner (12 + n) s) r /\ entry_oob 5 r.
Proof.
  intros H T L n. rewrite (pmt_run Release old p s H T L). cbv zeta. fold n. destruct (le_lt_dec (16 + n) (length s)) as [L2|L2].
  - rewrite (has_slice p s H 11 n) by lia. cbn [bind].
    destruct (loop_release (firstn n (skipn 11 s)) (pmt_descs old) (bytes_firstn _ _ (bytes_skipn _ _ (has_bytes p s H)))) as [P1 P2].
    destruct (descs_parse Release (pmt_descs old) (firstn n (skipn 11 s))) as [ds| |] eqn:E; cbn [bind].
    + rewrite (has_body p s H (12 + n)) by lia. cbn [bind]. rewrite bind_panic.
      rewrite (items_release 5 _ (entry_oob 5)); [|lia|apply inner_bytes, (has_bytes p s H)|apply pmt_item_release|apply pmt_item_ends].
      split; [auto|]. intros [X|[X|X]]; [lia|apply P1 in X; discriminate|assumption].
    + split; [|reflexivity]. intros _. right. left. apply P1. reflexivity.
    + exfalso. apply (ends_descs Release (pmt_descs old) (firstn n (skipn 11 s))); [apply bytes_firstn, bytes_skipn, (has_bytes p s H)|assumption].
  - split; [auto|]. intros _. pose proof (pmt_ends Release old p s H T L) as He. rewrite (pmt_run Release old p s H T L) in He. cbv zeta in He. fold n in He.
    destruct (slice (p_buffer p) 11 (11 + n)) as [d| |]; cbn [bind] in He |- *; [|reflexivity|exfalso; apply He; reflexivity].
    destruct (descs_parse Release (pmt_descs old) d) as [ds| |]; cbn [bind] in He |- *; [|reflexivity|exfalso; apply He; reflexivity].
    rewrite (has_body_out p s H (12 + n)) by lia. reflexivity.
Qed.
Lemma tot_release old p s : has p s -> p_buffer p = s -> tot_ids (field s 0 8) -> (14 <= length s)%nat ->
  let n := N.to_nat (field s 68 12) in
  tot_parse Release old p = Panic <-> (length s < 10 + n)%nat \/ loop_oob (firstn n (skipn 10 s)).
Proof.
  intros H Hp T L n. rewrite (tot_run Release old p s H T L). cbv zeta. fold n.
  destruct (mjd_release (field s 24 16) (field_lt s 24 16)) as [d ->]. cbn [bind].
  destruct (bcd_release (field s 40 24) (field24_lt _ _)) as [t ->]. cbn [bind].
  destruct (addw_release U64 d t) as [st ->]. cbn [bind]. destruct (le_lt_dec (10 + n) (length s)) as [L2|L2].
  - rewrite (has_slice p s H 10 n) by lia. cbn [bind]. rewrite bind_panic.
    rewrite (proj1 (loop_release (firstn n (skipn 10 s)) (tot_descs old) (bytes_firstn _ _ (bytes_skipn _ _ (has_bytes p s H))))).
    split; [auto|]. intros [X|X]; [lia|assumption].
  - split; [auto|]. intros _. unfold slice. rewrite Hp. destruct (Nat.leb_spec (10 + n) (length s)); [lia|]. rewrite andb_false_r. reflexivity.
Qed.

(** ** the TDT *)
Lemma tdt_run m old p : consistent p -> p_size p = 8%nat -> field (p_buffer p) 0 8 = 0x70 ->
  tdt_parse m old p = (d <- get_u16_at (p_buffer p) 3 ;; d <- from_mjd m d ;; s <- get_u24_at (p_buffer p) 5 ;; s <- u32_from_bcd_time m s ;;
                       addw U64 m d s).
Proof.
  intros (Hb & Hc) Hz T. unfold tdt_parse, tdt_check. rewrite Hz. cbn [Nat.eqb negb].
  rewrite get_field by (try assumption; destruct Hc as [[Hc _]|[Hc1 Hc2]]; lia). cbn [bind Nat.mul Nat.add]. rewrite T. reflexivity.
Qed.
Lemma u16_out l i : (length l < i + 2)%nat -> get_u16_at l i = Panic.
Proof.
  intros H. unfold get_u16_at, slice_from. destruct (Nat.leb_spec i (length l)); [|reflexivity]. cbn [bind]. unfold get_u16, get.
  assert (L : (length (skipn i l) < 2)%nat) by (rewrite skipn_length; lia). destruct (skipn i l) as [|a [|b r]]; try reflexivity. cbn in L. lia.
Qed.
Lemma u24_out l i : (length l < i + 3)%nat -> get_u24_at l i = Panic.
Proof.
  intros H. unfold get_u24_at, slice_from. destruct (Nat.leb_spec i (length l)); [|reflexivity]. cbn [bind]. unfold get_u24, get.
  assert (L : (length (skipn i l) < 3)%nat) by (rewrite skipn_length; lia). destruct (skipn i l) as [|a [|b [|c r]]]; try reflexivity. cbn in L. lia.
Qed.
Lemma tdt_short m old p : consistent p -> p_size p = 8%nat -> field (p_buffer p) 0 8 = 0x70 -> (length (p_buffer p) < 8)%nat ->
  tdt_parse m old p = Panic.
Proof.
  intros Hc Hz T L. rewrite tdt_run by assumption. pose proof (proj1 Hc) as Hb. destruct (le_lt_dec 5 (length (p_buffer p))) as [L5|L5].
  - rewrite get_u16_field by (try assumption; lia). cbn [bind Nat.mul Nat.add]. rewrite from_mjd_spec by apply (field_lt _ 24 16).
    destruct (_ <=? _); [|destruct m; [reflexivity|]]; cbn [bind]; rewrite u24_out by lia; reflexivity.
  - rewrite u16_out by lia. reflexivity.
Qed.
Lemma tdt_ends m old p : consistent p -> ends (tdt_parse m old p).
Proof.
  intros Hc. destruct (Nat.eq_dec (p_size p) 8) as [Hz|Hz]; [|rewrite tdt_pass by (try assumption; tauto); discriminate].
  destruct (N.eq_dec (field (p_buffer p) 0 8) 0x70) as [T|T]; [|rewrite tdt_pass by (try assumption; tauto); discriminate].
  destruct (le_lt_dec 8 (length (p_buffer p))) as [L|L]; [|rewrite tdt_short by assumption; discriminate].
  rewrite tdt_run by assumption. pose proof (proj1 Hc) as Hb. rewrite get_u16_field, get_u24_field by (try assumption; lia). cbn [bind Nat.mul Nat.add].
  apply ends_bind; [apply ends_mjd, (field_lt _ 24 16)|]. intros d _. apply ends_bind; [apply ends_bcd, field24_lt|]. intros t _. apply ends_addw.
Qed.
Lemma tdt_field p off w : (8 <= length (p_buffer p))%nat -> (off + w <= 64)%nat -> field (p_buffer p) off w = field (firstn 8 (p_buffer p)) off w.
Proof.
  intros L Hw. rewrite <- (firstn_skipn 8 (p_buffer p)) at 1. apply field_prefix. rewrite firstn_length. lia.
Qed.
Lemma tdt_debug old p : consistent p -> p_size p = 8%nat -> field (p_buffer p) 0 8 = 0x70 -> (8 <= length (p_buffer p))%nat ->
  outcome_is (tdt_parse Debug old p) (tdt_reads (firstn 8 (p_buffer p))) (fun t => t).
Proof.
  intros Hc Hz T L. pose proof (proj1 Hc) as Hb. apply outcome_intro; [apply tdt_ends; assumption| |].
  - intros t R. apply (tdt_parse_section Debug old p (firstn 8 (p_buffer p)) t); try assumption; [reflexivity|].
    rewrite <- tdt_field by lia. assumption.
  - intros u E. rewrite tdt_run in E by assumption. rewrite get_u16_field, get_u24_field in E by (try assumption; lia). cbn [bind Nat.mul Nat.add] in E.
    rewrite !(tdt_field p) in E by lia.
    apply bind_inv in E as (d & E1 & E). apply bind_inv in E as (t & E2 & E).
    apply mjd_debug in E1 as [H1 ->]; [|apply (field_lt _ 24 16)]. apply bcd_debug in E2 as [H2 ->]; [|apply field24_lt].
    rewrite time_sum in E by apply field16_lt. injection E as <-. eexists. split; [|reflexivity]. split; [reflexivity|split; assumption].
Qed.
Lemma tdt_release old p : consistent p -> (8 <= length (p_buffer p))%nat -> exists t, tdt_parse Release old p = Ok t.
Proof.
  intros Hc L. destruct (Nat.eq_dec (p_size p) 8) as [Hz|Hz]; [|rewrite tdt_pass by (try assumption; tauto); eauto].
  destruct (N.eq_dec (field (p_buffer p) 0 8) 0x70) as [T|T]; [|rewrite tdt_pass by (try assumption; tauto); eauto].
  rewrite tdt_run by assumption. pose proof (proj1 Hc) as Hb. rewrite get_u16_field, get_u24_field by (try assumption; lia). cbn [bind Nat.mul Nat.add].
  destruct (mjd_release (field (p_buffer p) 24 16) (field_lt _ 24 16)) as [d ->]. cbn [bind].
  destruct (bcd_release (field (p_buffer p) 40 24) (field24_lt _ _)) as [t ->]. cbn [bind]. apply addw_release.
Qed.
Lemma pat_total m old p : consistent p -> exists t, pat_parse m old p = Ok t.
Proof.
  intros Hc. destruct (pat_check_spec p Hc) as (c & E & I). destruct c.
  - assert (A : accepted pat_ids 12 p) by (apply I; reflexivity).
    destruct (accepted_has pat_ids 12 p Hc ltac:(lia) A) as (H & L & T & M). eexists. apply (pat_parse_section m old p _ H); [exact T|lia].
  - exists old. apply pat_pass; [assumption|]. intros A. apply I in A. discriminate.
Qed.
