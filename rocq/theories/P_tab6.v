(** Proofs about table parsers on arbitrary receiver states: what is passed over, what aborts. *)
From Verif Require Import Prelude Layout Facts Facts2 S_ts S_crc S_utils S_psi M_bytes M_ts M_crc M_utils M_psi M_drive M_recv M_desc S_desc
  M_tables S_tables P_bytes P_crc P_utils P_psi P_mux P_mux2 P_sect P_mux3 P_desc P_desc2 P_desc3 W_psi W_desc P_tab P_tab2.

(** ** what is looked at *)
(** the receiver holds all bytes of a section that is long enough, has a table_id of the table
    and a matching CRC *)
Definition accepted (ids : N -> Prop) (min : nat) (p : psi) : Prop :=
  (min <= p_size p <= length (p_buffer p))%nat /\ ids (field (p_buffer p) 0 8) /\ crc_spec (firstn (p_size p) (p_buffer p)) = 0.

Lemma accepted_has ids min p : consistent p -> (8 <= min)%nat -> accepted ids min p ->
  has p (firstn (p_size p) (p_buffer p)) /\ length (firstn (p_size p) (p_buffer p)) = p_size p /\
  ids (field (firstn (p_size p) (p_buffer p)) 0 8) /\ (min <= p_size p)%nat.
Proof.
  intros (Hb & Hc) Hm ((H1 & H2) & H3 & H4).
  assert (L : length (firstn (p_size p) (p_buffer p)) = p_size p) by (rewrite firstn_length; lia).
  assert (F : forall off w, (off + w <= 64)%nat -> field (firstn (p_size p) (p_buffer p)) off w = field (p_buffer p) off w).
  { intros off w Hw. rewrite <- (firstn_skipn (p_size p) (p_buffer p)) at 2. symmetry. apply field_prefix. rewrite L. lia. }
  destruct Hc as [[Hc _]|[Hc1 Hc2]]; [lia|]. repeat split.
  - apply bytes_firstn; assumption.
  - rewrite L. unfold section_length in *. rewrite F by lia. assumption.
  - rewrite L. lia.
  - assumption.
  - rewrite L. reflexivity.
  - exists (skipn (p_size p) (p_buffer p)). split; [symmetry; apply firstn_skipn|apply bytes_skipn; assumption].
  - assumption.
  - rewrite F by lia. assumption.
  - assumption.
Qed.

Lemma check_accepts (chk : psi -> res bool) (f : N -> bool) ids min p : consistent p -> (8 <= min)%nat ->
  chk p = (if negb (min <=? p_size p)%nat then Ok false else b <- get (p_buffer p) 0 ;; if negb (f b) then Ok false else psi_check p) ->
  (forall b, b < 256 -> f b = true <-> ids b) ->
  exists c, chk p = Ok c /\ (c = true <-> accepted ids min p).
Proof.
  intros (Hb & Hc) Hm -> Hf. unfold accepted. destruct (Nat.leb_spec min (p_size p)) as [L|L]; cbn [negb].
  - assert (3 <= length (p_buffer p))%nat by (destruct Hc as [[Hc _]|[Hc1 Hc2]]; lia).
    rewrite get_field by (try assumption; lia). cbn [bind Nat.mul Nat.add]. destruct (f (field (p_buffer p) 0 8)) eqn:Ef; cbn [negb].
    + rewrite psi_check_spec by assumption. eexists. split; [reflexivity|]. apply Hf in Ef; [|apply (field_lt _ 0 8)].
      rewrite !andb_true_iff, Nat.ltb_lt, Nat.leb_le, N.eqb_eq. intuition lia.
    + exists false. split; [reflexivity|]. split; [discriminate|]. intros (_ & H1 & _). apply Hf in H1; [congruence|apply (field_lt _ 0 8)].
  - exists false. split; [reflexivity|]. split; [discriminate|]. lia.
Qed.

(** the table ids *)
Definition pat_ids (b : N) : Prop := b = 0x00.
Definition pmt_ids (b : N) : Prop := b = 0x02.
Definition nit_ids (b : N) : Prop := b = 0x40 \/ b = 0x41.
Definition sdt_ids (b : N) : Prop := b = 0x42 \/ b = 0x46.
Definition eit_ids (b : N) : Prop := 0x4E <= b <= 0x6F.
Definition tot_ids (b : N) : Prop := b = 0x73.

Lemma by_byte (f g : N -> bool) b : b < 256 -> forallb (fun i => Bool.eqb (f (N.of_nat i)) (g (N.of_nat i))) (seq 0 256) = true -> f b = g b.
Proof.
  intros H G. rewrite forallb_forall in G. specialize (G (N.to_nat b)). rewrite in_seq, N2Nat.id in G. apply eqb_prop, G. lia.
Qed.

Lemma pat_check_spec p : consistent p -> exists c, pat_check p = Ok c /\ (c = true <-> accepted pat_ids 12 p).
Proof.
  intros H. apply (check_accepts pat_check (fun b => b =? 0x00)); [assumption|lia|reflexivity|]. intros b _. apply N.eqb_eq.
Qed.
Lemma pmt_check_spec p : consistent p -> exists c, pmt_check p = Ok c /\ (c = true <-> accepted pmt_ids 16 p).
Proof.
  intros H. apply (check_accepts pmt_check (fun b => b =? 0x02)); [assumption|lia|reflexivity|]. intros b _. apply N.eqb_eq.
Qed.
Lemma tot_check_spec p : consistent p -> exists c, tot_check p = Ok c /\ (c = true <-> accepted tot_ids 14 p).
Proof.
  intros H. apply (check_accepts tot_check (fun b => b =? 0x73)); [assumption|lia|reflexivity|]. intros b _. apply N.eqb_eq.
Qed.
Lemma nit_check_spec p : consistent p -> exists c, nit_check p = Ok c /\ (c = true <-> accepted nit_ids 16 p).
Proof.
  intros H. apply (check_accepts nit_check (fun b => N.land b 0xFE =? 0x40)); [assumption|lia|reflexivity|]. intros b Hb.
  rewrite (by_byte (fun b => N.land b 0xFE =? 0x40) (fun b => (b =? 0x40) || (b =? 0x41)) b Hb) by (vm_compute; reflexivity).
  unfold nit_ids. rewrite orb_true_iff, !N.eqb_eq. reflexivity.
Qed.
Lemma sdt_check_spec p : consistent p -> exists c, sdt_check p = Ok c /\ (c = true <-> accepted sdt_ids 15 p).
Proof.
  intros H. apply (check_accepts sdt_check (fun b => N.land b 0xFB =? 0x42)); [assumption|lia|reflexivity|]. intros b Hb.
  rewrite (by_byte (fun b => N.land b 0xFB =? 0x42) (fun b => (b =? 0x42) || (b =? 0x46)) b Hb) by (vm_compute; reflexivity).
  unfold sdt_ids. rewrite orb_true_iff, !N.eqb_eq. reflexivity.
Qed.
Lemma eit_check_spec p : consistent p -> exists c, eit_check p = Ok c /\ (c = true <-> accepted eit_ids 18 p).
Proof.
  intros H. apply (check_accepts eit_check
    (fun b => (b =? 0x4E) || (b =? 0x4F) || ((0x50 <=? b) && (b <=? 0x5F)) || ((0x60 <=? b) && (b <=? 0x6F)))); [assumption|lia|reflexivity|].
  intros b Hb. unfold eit_ids. rewrite !orb_true_iff, !andb_true_iff, !N.eqb_eq, !N.leb_le. lia.
Qed.

Ltac passed H spec := intros H N; destruct (spec _ H) as (c & E & I); rewrite E; destruct c; [exfalso; apply N, I; reflexivity|]; reflexivity.
Lemma pat_pass m t p : consistent p -> ~ accepted pat_ids 12 p -> pat_parse m t p = Ok t.
Proof. unfold pat_parse. passed H pat_check_spec. Qed.
Lemma pmt_pass m t p : consistent p -> ~ accepted pmt_ids 16 p -> pmt_parse m t p = Ok t.
Proof. unfold pmt_parse. passed H pmt_check_spec. Qed.
Lemma nit_pass m t p : consistent p -> ~ accepted nit_ids 16 p -> nit_parse m t p = Ok t.
Proof. unfold nit_parse. passed H nit_check_spec. Qed.
Lemma sdt_pass m t p : consistent p -> ~ accepted sdt_ids 15 p -> sdt_parse m t p = Ok t.
Proof. unfold sdt_parse. passed H sdt_check_spec. Qed.
Lemma eit_pass m t p : consistent p -> ~ accepted eit_ids 18 p -> eit_parse m t p = Ok t.
Proof. unfold eit_parse. passed H eit_check_spec. Qed.
Lemma tot_pass m t p : consistent p -> ~ accepted tot_ids 14 p -> tot_parse m t p = Ok t.
Proof. unfold tot_parse. passed H tot_check_spec. Qed.
Lemma tdt_pass m t p : consistent p -> ~ (p_size p = 8%nat /\ field (p_buffer p) 0 8 = 0x70) -> tdt_parse m t p = Ok t.
Proof.
  intros (Hb & Hc) N. unfold tdt_parse, tdt_check. destruct (Nat.eqb_spec (p_size p) 8) as [E|E]; cbn [negb bind]; [|reflexivity].
  rewrite get_field by (try assumption; destruct Hc as [[Hc _]|[Hc1 Hc2]]; lia). cbn [bind Nat.mul Nat.add].
  destruct (N.eqb_spec (field (p_buffer p) 0 8) 0x70); [tauto|reflexivity].
Qed.

(** ** what parsing an accepted section computes *)
Lemma sdt_run m old p s : has p s -> sdt_ids (field s 0 8) -> (15 <= length s)%nat ->
  sdt_parse m old p = (items <- parse_items 5 (sdt_item_parse m) (inner 11 s) (sdt_items old) ;;
                       Ok (mkSdt (field s 0 8) (field s 42 5) (field s 24 16) (field s 64 16) items)).
Proof.
  intros H T L. unfold sdt_parse, sdt_check.
  assert (E1 : (15 <=? p_size p)%nat = true). { destruct H as (_ & -> & _). apply Nat.leb_le. lia. }
  rewrite E1. cbn [negb]. rewrite (has_get p s H 0) by lia. cbn [bind Nat.mul Nat.add].
  assert (E2 : (N.land (field s 0 8) 0xFB =? 0x42) = true) by (destruct T as [-> | ->]; reflexivity). rewrite E2. cbn [negb].
  rewrite (has_check p s H). cbn [bind negb].
  rewrite (has_u16 p s H 3), (has_version p s H), (has_u16 p s H 8), (has_body p s H 11) by lia. reflexivity.
Qed.
Lemma eit_run m old p s : has p s -> eit_ids (field s 0 8) -> (18 <= length s)%nat ->
  eit_parse m old p = (items <- parse_items 12 (eit_item_parse m) (inner 14 s) (eit_items old) ;;
                       Ok (mkEit (field s 0 8) (field s 42 5) (field s 24 16) (field s 64 16) (field s 80 16) items)).
Proof.
  intros H T L. unfold eit_parse, eit_check.
  assert (E1 : (18 <=? p_size p)%nat = true). { destruct H as (_ & -> & _). apply Nat.leb_le. lia. }
  rewrite E1. cbn [negb]. rewrite (has_get p s H 0) by lia. cbn [bind Nat.mul Nat.add]. unfold eit_ids in T. set (b := field s 0 8) in *.
  assert (E2 : ((b =? 0x4E) || (b =? 0x4F) || ((0x50 <=? b) && (b <=? 0x5F)) || ((0x60 <=? b) && (b <=? 0x6F))) = true).
  { destruct (N.eqb_spec b 0x4E), (N.eqb_spec b 0x4F), (N.leb_spec 0x50 b), (N.leb_spec b 0x5F), (N.leb_spec 0x60 b), (N.leb_spec b 0x6F);
      try reflexivity; lia. }
  rewrite E2. cbn [negb].
  rewrite (has_check p s H). cbn [bind negb].
  rewrite (has_u16 p s H 3), (has_version p s H), (has_u16 p s H 8), (has_u16 p s H 10), (has_body p s H 14) by lia. reflexivity.
Qed.
Lemma nit_run m old p s : has p s -> nit_ids (field s 0 8) -> (16 <= length s)%nat ->
  let n := N.to_nat (field s 68 12) in
  nit_parse m old p = (d <- slice (p_buffer p) 10 (10 + n) ;; ds <- descs_parse m (nit_descs old) d ;; ptr <- body_from p (12 + n) ;;
                       items <- parse_items 6 (nit_item_parse m) ptr (nit_items old) ;;
                       Ok (mkNit (field s 0 8) (field s 42 5) (field s 24 16) ds items)).
Proof.
  intros H T L n. unfold nit_parse, nit_check.
  assert (E1 : (16 <=? p_size p)%nat = true). { destruct H as (_ & -> & _). apply Nat.leb_le. lia. }
  rewrite E1. cbn [negb]. rewrite (has_get p s H 0) by lia. cbn [bind Nat.mul Nat.add].
  assert (E2 : (N.land (field s 0 8) 0xFE =? 0x40) = true) by (destruct T as [-> | ->]; reflexivity). rewrite E2. cbn [negb].
  rewrite (has_check p s H). cbn [bind negb].
  rewrite (has_u16 p s H 3), (has_version p s H), (has_u16 p s H 8) by lia. cbn [bind].
  rewrite low12 by lia. reflexivity.
Qed.
Lemma pmt_run m old p s : has p s -> pmt_ids (field s 0 8) -> (16 <= length s)%nat ->
  let n := N.to_nat (field s 84 12) in
  pmt_parse m old p = (d <- slice (p_buffer p) 11 (11 + n) ;; ds <- descs_parse m (pmt_descs old) d ;; ptr <- body_from p (12 + n) ;;
                       items <- parse_items 5 (pmt_item_parse m) ptr (pmt_items old) ;;
                       Ok (mkPmt (field s 42 5) (field s 24 16) (field s 67 13) ds items)).
Proof.
  intros H T L n. unfold pmt_parse, pmt_check.
  assert (E1 : (16 <=? p_size p)%nat = true). { destruct H as (_ & -> & _). apply Nat.leb_le. lia. }
  rewrite E1. cbn [negb]. rewrite (has_get p s H 0) by lia. cbn [bind Nat.mul Nat.add]. rewrite T. change (2 =? 2) with true. cbn [negb].
  rewrite (has_check p s H). cbn [bind negb].
  rewrite (has_u16 p s H 3), (has_version p s H), (has_u16 p s H 8), (has_u16 p s H 10) by lia. cbn [bind].
  rewrite low12, low13 by lia. reflexivity.
Qed.
Lemma tot_run m old p s : has p s -> tot_ids (field s 0 8) -> (14 <= length s)%nat ->
  let n := N.to_nat (field s 68 12) in
  tot_parse m old p = (d <- from_mjd m (field s 24 16) ;; t <- u32_from_bcd_time m (field s 40 24) ;; time <- addw U64 m d t ;;
                       d <- slice (p_buffer p) 10 (10 + n) ;; ds <- descs_parse m (tot_descs old) d ;; Ok (mkTot time ds)).
Proof.
  intros H T L n. unfold tot_parse, tot_check.
  assert (E1 : (14 <=? p_size p)%nat = true). { destruct H as (_ & -> & _). apply Nat.leb_le. lia. }
  rewrite E1. cbn [negb]. rewrite (has_get p s H 0) by lia. cbn [bind Nat.mul Nat.add]. rewrite T. change (115 =? 115) with true. cbn [negb].
  rewrite (has_check p s H). cbn [bind negb].
  rewrite (has_u16 p s H 3), (has_u24 p s H 5), (has_u16 p s H 8) by lia. cbn [bind]. rewrite low12 by lia. reflexivity.
Qed.

(** ** reading never hangs *)
Definition ends {A} (r : res A) : Prop := r <> Hang.
Lemma ends_bind {A B} (e : res A) (k : A -> res B) : ends e -> (forall a, e = Ok a -> ends (k a)) -> ends (bind e k).
Proof. unfold ends. destruct e; cbn [bind]; intros H1 H2; [apply H2; reflexivity|discriminate|congruence]. Qed.
Lemma ends_ok {A} (a : A) : ends (Ok a). Proof. discriminate. Qed.
Lemma ends_slice {A} (l : list A) a b : ends (slice l a b). Proof. unfold ends, slice. destruct (_ && _); discriminate. Qed.
Lemma slice_bytes l a b r : bytes l -> slice l a b = Ok r -> bytes r.
Proof. unfold slice. destruct (_ && _); [|discriminate]. intros H E. injection E as <-. apply bytes_firstn, bytes_skipn, H. Qed.
Lemma ends_desc m t b : bytes b -> (length b < 256)%nat -> ends (desc_parse m (tlv t b)).
Proof.
  intros Hb Hl E. destruct (parse_outcome m t b Hb Hl) as [(d & _ & Q)|(N & O1 & O2)]; [congruence|].
  destruct (oob_dec t b Hb) as [O|O]; [rewrite (O1 O) in E; discriminate|]. specialize (O2 O).
  destruct m; [congruence|]. destruct O2; congruence.
Qed.
Lemma ends_each m : forall recs ds, records_ok recs -> ends (parse_each m ds recs).
Proof.
  induction recs as [|[t b] recs IH]; intros ds R; [apply ends_ok|]. inversion R as [|? ? (R1 & R2 & R3) R']; subst. cbn [fst snd] in *.
  cbn [parse_each]. apply ends_bind; [apply ends_desc; assumption|]. intros d _. apply IH. assumption.
Qed.
Lemma ends_descs m old l : bytes l -> ends (descs_parse m old l).
Proof.
  intros Hb. destruct (decompose l Hb) as (recs & tail & -> & I & R). rewrite descs_parse_records by (try assumption; apply records_len; assumption).
  apply ends_each. assumption.
Qed.
Lemma ends_list {A} (parse : list N -> res A) recs : Forall (fun r => ends (parse r)) recs -> ends (parse_list parse recs).
Proof.
  induction 1 as [|r recs H F IH]; [apply ends_ok|]. cbn [parse_list]. apply ends_bind; [assumption|]. intros i _.
  apply ends_bind; [assumption|]. intros; apply ends_ok.
Qed.
(** the entries of a loop *)
Lemma items_split {A} h (parse : list N -> res A) l items : (2 <= h)%nat -> bytes l -> exists recs tail,
  l = concat recs ++ tail /\ cut_off h tail /\ Forall (fun r => bytes r /\ entry h r) recs /\
  parse_items h parse l items = (x <- parse_list parse recs ;; Ok (items ++ x)).
Proof.
  intros Hh Hb. destruct (entries_exist h l Hh) as (recs & tail & -> & C & F). apply bytes_app in Hb as [Hb1 Hb2].
  assert (FB : Forall (fun r => bytes r /\ entry h r) recs).
  { apply concat_bytes in Hb1. rewrite Forall_forall in *. intros r Hr. split; [apply Hb1|apply F]; assumption. }
  exists recs, tail. repeat split; try assumption. apply parse_items_records; assumption.
Qed.
Lemma ends_items {A} h (parse : list N -> res A) l items : (2 <= h)%nat -> bytes l ->
  (forall r, bytes r -> entry h r -> ends (parse r)) -> ends (parse_items h parse l items).
Proof.
  intros Hh Hb He. destruct (items_split h parse l items Hh Hb) as (recs & tail & _ & _ & F & ->).
  apply ends_bind; [|intros; apply ends_ok]. apply ends_list. eapply Forall_impl; [|exact F]. intros r [H1 H2]. apply He; assumption.
Qed.
Lemma ends_mjd m v : v < 65536 -> ends (from_mjd m v).
Proof. intros H. rewrite from_mjd_spec by assumption. destruct (_ <=? _); [discriminate|destruct m; discriminate]. Qed.
Lemma ends_bcd m v : v < 2 ^ 24 -> ends (u32_from_bcd_time m v).
Proof.
  intros H. rewrite u32_from_bcd_time_spec by (change (2 ^ 24) with 16777216 in H; lia). cbv zeta.
  destruct m; [destruct (nibs_ok 6 v)|]; discriminate.
Qed.
Lemma ends_addw w m a b : ends (addw w m a b).
Proof. unfold ends, addw. destruct (_ <? _); [|destruct m]; discriminate. Qed.

Ltac ending := repeat (apply ends_bind; [|intros]); try apply ends_ok.
Lemma pmt_item_run m r : bytes r -> entry 5 r ->
  pmt_item_parse m r = (ds <- descs_parse m [] (skipn 5 r) ;; Ok (mkPmtI (field r 0 8) (field r 11 13) ds)).
Proof.
  intros Hb [Hl _]. unfold pmt_item_parse. rewrite get_field, get_u16_field by (try assumption; lia). cbn [bind].
  rewrite slice_from_ok by lia. cbn [bind]. rewrite low13 by lia. reflexivity.
Qed.
Lemma nit_item_run m r : bytes r -> entry 6 r ->
  nit_item_parse m r = (ds <- descs_parse m [] (skipn 6 r) ;; Ok (mkNitI (field r 0 16) (field r 16 16) ds)).
Proof.
  intros Hb [Hl _]. unfold nit_item_parse. rewrite !get_u16_field by (try assumption; lia). cbn [bind].
  rewrite slice_from_ok by lia. reflexivity.
Qed.
Lemma sdt_item_run m r : bytes r -> entry 5 r ->
  sdt_item_parse m r = (ds <- descs_parse m [] (skipn 5 r) ;;
                        Ok (mkSdtI (field r 0 16) (field r 22 1) (field r 23 1) (field r 24 3) (field r 27 1) ds)).
Proof.
  intros Hb [Hl _]. unfold sdt_item_parse. rewrite get_u16_field, !get_field by (try assumption; lia). cbn [bind].
  rewrite slice_from_ok by lia. cbn [bind].
  pose proof (bit_mid r 2 6 1 1 Hb ltac:(lia) ltac:(lia) eq_refl) as E1.
  pose proof (byte_low r 2 7 1 1 Hb ltac:(lia) ltac:(lia) eq_refl) as E2.
  pose proof (bit_mid r 3 0 3 7 Hb ltac:(lia) ltac:(lia) eq_refl) as E3.
  pose proof (bit_mid r 3 3 1 1 Hb ltac:(lia) ltac:(lia) eq_refl) as E4.
  cbn [Nat.mul Nat.add Nat.sub] in *. change (N.of_nat 1) with 1 in *. change (N.of_nat 5) with 5 in *. change (N.of_nat 4) with 4 in *.
  rewrite E1, E2, E3, E4. reflexivity.
Qed.
Lemma eit_item_run m r : bytes r -> entry 12 r ->
  eit_item_parse m r = (d <- from_mjd m (field r 16 16) ;; t <- u32_from_bcd_time m (field r 32 24) ;; start <- addw U64 m d t ;;
                        u <- u32_from_bcd_time m (field r 56 24) ;; ds <- descs_parse m [] (skipn 12 r) ;;
                        Ok (mkEitI (field r 0 16) start u (field r 80 3) (field r 83 1) ds)).
Proof.
  intros Hb [Hl _]. unfold eit_item_parse.
  rewrite !get_u16_field, !get_u24_field, get_field by (try assumption; lia). cbn [bind Nat.mul Nat.add].
  rewrite slice_from_ok by lia. cbn [bind].
  pose proof (bit_mid r 10 0 3 7 Hb ltac:(lia) ltac:(lia) eq_refl) as E3.
  pose proof (bit_mid r 10 3 1 1 Hb ltac:(lia) ltac:(lia) eq_refl) as E4.
  cbn [Nat.mul Nat.add Nat.sub] in *. change (N.of_nat 5) with 5 in *. change (N.of_nat 4) with 4 in *.
  rewrite E3, E4. reflexivity.
Qed.
Lemma pmt_item_ends m r : bytes r -> entry 5 r -> ends (pmt_item_parse m r).
Proof. intros Hb H. rewrite pmt_item_run by assumption. ending. apply ends_descs, bytes_skipn, Hb. Qed.
Lemma nit_item_ends m r : bytes r -> entry 6 r -> ends (nit_item_parse m r).
Proof. intros Hb H. rewrite nit_item_run by assumption. ending. apply ends_descs, bytes_skipn, Hb. Qed.
Lemma sdt_item_ends m r : bytes r -> entry 5 r -> ends (sdt_item_parse m r).
Proof. intros Hb H. rewrite sdt_item_run by assumption. ending. apply ends_descs, bytes_skipn, Hb. Qed.
Lemma eit_item_ends m r : bytes r -> entry 12 r -> ends (eit_item_parse m r).
Proof.
  intros Hb H. rewrite eit_item_run by assumption.
  apply ends_bind; [apply ends_mjd, (field_lt r 16 16)|]. intros d _. apply ends_bind; [apply ends_bcd, field24_lt|]. intros t _.
  apply ends_bind; [apply ends_addw|]. intros start _. apply ends_bind; [apply ends_bcd, field24_lt|]. intros u _.
  ending. apply ends_descs, bytes_skipn, Hb.
Qed.

Lemma sdt_ends m old p s : has p s -> sdt_ids (field s 0 8) -> (15 <= length s)%nat -> ends (sdt_parse m old p).
Proof.
  intros H T L. rewrite (sdt_run m old p s H T L). ending. apply ends_items; [lia|apply inner_bytes, (has_bytes p s H)|apply sdt_item_ends].
Qed.
Lemma eit_ends m old p s : has p s -> eit_ids (field s 0 8) -> (18 <= length s)%nat -> ends (eit_parse m old p).
Proof.
  intros H T L. rewrite (eit_run m old p s H T L). ending. apply ends_items; [lia|apply inner_bytes, (has_bytes p s H)|apply eit_item_ends].
Qed.
Lemma nit_ends m old p s : has p s -> nit_ids (field s 0 8) -> (16 <= length s)%nat -> ends (nit_parse m old p).
Proof.
  intros H T L. rewrite (nit_run m old p s H T L). cbv zeta. pose proof (has_buf p s H) as Hb. apply ends_bind; [apply ends_slice|].
  intros d Ed. apply ends_bind; [apply ends_descs; eapply slice_bytes; eassumption|]. intros ds _. apply ends_bind; [apply ends_slice|].
  intros ptr Ep. ending. apply ends_items; [lia|eapply slice_bytes; eassumption|apply nit_item_ends].
Qed.
Lemma pmt_ends m old p s : has p s -> pmt_ids (field s 0 8) -> (16 <= length s)%nat -> ends (pmt_parse m old p).
Proof.
  intros H T L. rewrite (pmt_run m old p s H T L). cbv zeta. pose proof (has_buf p s H) as Hb. apply ends_bind; [apply ends_slice|].
  intros d Ed. apply ends_bind; [apply ends_descs; eapply slice_bytes; eassumption|]. intros ds _. apply ends_bind; [apply ends_slice|].
  intros ptr Ep. ending. apply ends_items; [lia|eapply slice_bytes; eassumption|apply pmt_item_ends].
Qed.
Lemma tot_ends m old p s : has p s -> tot_ids (field s 0 8) -> (14 <= length s)%nat -> ends (tot_parse m old p).
Proof.
  intros H T L. rewrite (tot_run m old p s H T L). cbv zeta. pose proof (has_buf p s H) as Hb.
  apply ends_bind; [apply ends_mjd, (field_lt s 24 16)|]. intros d _. apply ends_bind; [apply ends_bcd, field24_lt|]. intros t _.
  apply ends_bind; [apply ends_addw|]. intros time _. apply ends_bind; [apply ends_slice|].
  intros ds Ed. ending. apply ends_descs. eapply slice_bytes; eassumption.
Qed.
