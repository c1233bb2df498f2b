(** Property theorems C44-C48, C52-C55: tables. Specification: S_tables (what is sent: X_section,
    X_bytes; what is read: X_reads). [receive] pushes packets into one Psi and hands it to the
    table after each (M_recv). *)
From Verif Require Import Prelude Layout S_ts S_crc S_utils S_psi M_text M_psi M_drive M_recv M_desc S_desc M_tables S_tables.
From Verif Require P_tab P_tab2 P_tab5 P_tab6 P_tab7 P_tot W_tables Facts.

(** ** vocabulary of the statements *)
(** what demux returns when it appends the packets of the sections [ss] to [dst] *)
Definition sends (dm : res (N * list N)) (pid cc : N) (dst : list N) (ss : list (list N)) : Prop :=
  dm = Ok (next_cc pid cc ss, dst ++ concat (stream pid cc ss)).
(** the descriptors of an item come back when read *)
Definition item_exact {A} (ds : A -> list desc) (i : A) : Prop := loop_exact (ds i).
(** the Psi holds the complete section [s], and possibly bytes behind it *)
Definition has (p : psi) (s : list N) : Prop :=
  section_ok s /\ p_size p = length s /\ exists extra, p_buffer p = s ++ extra /\ bytes extra.
(** size unknown while the header is incomplete, else taken from the header: true of every
    state that mux can produce (C42) *)
Definition consistent (p : psi) : Prop :=
  bytes (p_buffer p) /\
  ((p_size p = 0%nat /\ (length (p_buffer p) < 3)%nat) \/
   ((3 <= length (p_buffer p))%nat /\ p_size p = section_length (p_buffer p))).
(** the receiver holds all bytes of a section that is long enough, has a table_id of the table
    and a matching CRC *)
Definition accepted (ids : N -> Prop) (min : nat) (p : psi) : Prop :=
  (min <= p_size p <= length (p_buffer p))%nat /\ ids (field (p_buffer p) 0 8) /\ crc_spec (firstn (p_size p) (p_buffer p)) = 0.
Definition pat_ids (b : N) : Prop := b = 0x00.
Definition pmt_ids (b : N) : Prop := b = 0x02.
Definition nit_ids (b : N) : Prop := b = 0x40 \/ b = 0x41.
Definition sdt_ids (b : N) : Prop := b = 0x42 \/ b = 0x46.
Definition eit_ids (b : N) : Prop := 0x4E <= b <= 0x6F.
Definition tot_ids (b : N) : Prop := b = 0x73.
(** the outcome of reading: Ok exactly with what is specified, added to the table, and an abort
    exactly where nothing is specified *)
Definition outcome_is {T} (r : res T) (rd : T -> Prop) (add : T -> T) : Prop :=
  (forall u, r = Ok u <-> exists t, rd t /\ u = add t) /\ (r = Panic <-> forall t, ~ rd t).

(** concrete tables, sent and received again: number of packets and the table *)
Fixpoint in_packets (n : nat) (l : list N) : list (list N) :=
  match n with O => [] | S n => firstn 188 l :: in_packets n (skipn 188 l) end.
Definition round {T} (dm : N -> N -> list N -> res (N * list N)) (pr : T -> psi -> res T) (t0 : T) (pid : N) : option (nat * T) :=
  match dm pid 5 [] with
  | Ok (_, pk) =>
    let n := (length pk / 188)%nat in
    match receive Debug pr psi_default t0 (in_packets n pk) with Ok (_, t) => Some (n, t) | _ => None end
  | _ => None
  end.
Definition ex_raw : desc := DRaw (mkRaw 0x05 [0x48; 0x44; 0x4D; 0x56]).
Definition ex_48 : desc := D48 (mk48 1 (mkDvb 5 [0xbf; 0xe0]) (mkDvb 0 [0x54; 0x56])).
Definition ex_pat : pat := mkPat 7 0x1234 [mkPatI 0 16; mkPatI 100 256; mkPatI 200 8191].
Definition ex_pmt (ds : list desc) : pmt := mkPmt 3 100 256 ds [mkPmtI 2 256 []; mkPmtI 6 257 [ex_raw; D52 9]].
Definition ex_nit : nit := mkNit 0x40 1 0x3001 [D40 (mkDvb 0 [0x41; 0x42])] [mkNitI 1 2 [D41 [mk41i 100 1; mk41i 200 2]]; mkNitI 3 4 []].
Definition ex_sdt (n : nat) : sdt := mkSdt 0x42 2 1 9 (map (fun i => mkSdtI (N.of_nat i) 1 0 4 1 [ex_48]) (seq 1 n)).

(** * C44 *)
(** what is sent and how it is received, for any number of programs: the first 253 *)
Theorem C44_pat : forall m t pid cc dst, pat_ok t -> pid < 8192 -> cc < 16 ->
  let s := pat_section t (firstn 253 (pat_items t)) in
  sends (pat_demux m t pid cc dst) pid cc dst [s] /\
  forall m' p old, exists q, receive m' (pat_parse m') p old (stream pid cc [s]) =
    Ok (q, pat_add old (mkPat (pat_version t) (pat_tsid t) (firstn 253 (pat_items t)))).
Proof. exact W_tables.pat_whole. Qed.
Print Assumptions C44_pat.
(** so up to 253 programs come back, into a new table exactly *)
Theorem C44_recovered : forall m t pid cc dst, pat_ok t -> (length (pat_items t) <= 253)%nat -> pid < 8192 -> cc < 16 ->
  exists ss, sends (pat_demux m t pid cc dst) pid cc dst ss /\
  forall m' p, exists q, receive m' (pat_parse m') p pat_default (stream pid cc ss) = Ok (q, t).
Proof.
  intros m t pid cc dst H L Hp Hc. destruct (C44_pat m t pid cc dst H Hp Hc) as [S R]. eexists. split; [exact S|].
  intros m' p. destruct (R m' p pat_default) as [q E]. exists q. rewrite E. rewrite firstn_all2 by exact L. destruct t; reflexivity.
Qed.
Print Assumptions C44_recovered.
(** and more do not *)
Theorem C44_beyond_253_refuted : forall m t pid cc dst, pat_ok t -> (253 < length (pat_items t))%nat -> pid < 8192 -> cc < 16 ->
  exists ss, sends (pat_demux m t pid cc dst) pid cc dst ss /\
  forall m' p, exists q u, receive m' (pat_parse m') p pat_default (stream pid cc ss) = Ok (q, u) /\ u <> t /\ length (pat_items u) = 253%nat.
Proof.
  intros m t pid cc dst H L Hp Hc. destruct (C44_pat m t pid cc dst H Hp Hc) as [S R]. eexists. split; [exact S|].
  intros m' p. destruct (R m' p pat_default) as [q E]. exists q. eexists. split; [exact E|].
  assert (E253 : length (firstn 253 (pat_items t)) = 253%nat) by (rewrite firstn_length; lia).
  split; [|exact E253]. intros X. rewrite <- X in L. cbn [pat_add pat_items pat_default app] in L. lia.
Qed.
Print Assumptions C44_beyond_253_refuted.
(** reading any sender's PAT section *)
Theorem C44_read : forall m old p s t, has p s -> field s 0 8 = 0x00 -> (12 <= length s)%nat -> pat_reads s t ->
  pat_parse m old p = Ok (pat_add old t).
Proof. intros m old p s t H T L ->. exact (P_tab2.pat_parse_section m old p s H T L). Qed.
Print Assumptions C44_read.
Example C44_ex : round (pat_demux Debug ex_pat) (pat_parse Debug) pat_default 0 = Some (1%nat, ex_pat).
Proof. vm_compute. reflexivity. Qed.
Example C44_ex_beyond : pat_ok (mkPat 0 1 (repeat (mkPatI 7 100) 300)) /\
  exists pk, pat_demux Debug (mkPat 0 1 (repeat (mkPatI 7 100) 300)) 0 0 [] = Ok (6, pk).
Proof.
  split; [|eexists; vm_compute; reflexivity]. split; [reflexivity|]. split; [reflexivity|]. cbn [pat_items].
  apply Forall_forall. intros i Hi. apply repeat_spec in Hi as ->. split; reflexivity.
Qed.

(** * C45 *)
Theorem C45_pmt : forall m t pid cc dst, pmt_ok t -> pmt_fits (N.to_nat 4098) t -> pid < 8192 -> cc < 16 ->
  exists groups, grouping (pmt_items t) groups /\ let ss := numbered (pmt_section t (N.of_nat (length groups - 1))) 0 groups in
    sends (pmt_demux m t pid cc dst) pid cc dst ss /\
    (pmt_descs t = [] -> Forall (item_exact pmti_descs) (pmt_items t) ->
     forall m' p old, exists q, receive m' (pmt_parse m') p old (stream pid cc ss) = Ok (q, pmt_add old t)).
Proof. exact W_tables.pmt_whole. Qed.
Print Assumptions C45_pmt.
Theorem C45_recovered : forall m t pid cc dst, pmt_ok t -> pmt_fits (N.to_nat 4098) t -> pid < 8192 -> cc < 16 ->
  pmt_descs t = [] -> Forall (item_exact pmti_descs) (pmt_items t) ->
  exists ss, sends (pmt_demux m t pid cc dst) pid cc dst ss /\
  forall m' p, exists q, receive m' (pmt_parse m') p pmt_default (stream pid cc ss) = Ok (q, t).
Proof.
  intros m t pid cc dst H F Hp Hc D X. destruct (C45_pmt m t pid cc dst H F Hp Hc) as (gs & _ & S & R). eexists. split; [exact S|].
  intros m' p. destruct (R D X m' p pmt_default) as [q E]. exists q. rewrite E. destruct t; reflexivity.
Qed.
Print Assumptions C45_recovered.
(** with program descriptors: one registration descriptor is lost *)
Theorem C45_program_descriptors_refuted : exists t, pmt_ok t /\ pmt_fits (N.to_nat 1024) t /\ loop_exact (pmt_descs t) /\
  Forall (item_exact pmti_descs) (pmt_items t) /\ forall m, exists pk, pmt_demux m t 100 0 [] = Ok (1, pk) /\
    forall m', exists q u, receive m' (pmt_parse m') psi_default pmt_default [pk] = Ok (q, u) /\ u <> t /\ pmt_descs u = [].
Proof.
  exists (ex_pmt [ex_raw]).
  assert (O : desc_ok ex_raw /\ exact ex_raw /\ desc_ok (D52 9) /\ exact (D52 9)).
  { assert (B : forall t b, bytes b -> bytes (tlv t b) \/ True) by auto.
    assert (R : ~ In 5 supported) by (cbn; intros X; repeat destruct X as [X|X]; try discriminate; destruct X).
    repeat split; try exact R; try (vm_compute; reflexivity); try (vm_compute; lia); repeat constructor. }
  destruct O as (O1 & O2 & O3 & O4).
  split; [|split; [|split; [|split]]].
  - split; [reflexivity|]. split; [reflexivity|]. split; [reflexivity|]. split; [split; [constructor; [assumption|constructor]|vm_compute; lia]|].
    constructor; [|constructor; [|constructor]]; (split; [reflexivity|]); (split; [reflexivity|]); (split; [|vm_compute; lia]);
      [constructor|constructor; [assumption|constructor; [assumption|constructor]]].
  - split; [vm_compute; lia|]. constructor; [vm_compute; lia|constructor; [vm_compute; lia|constructor]].
  - constructor; [assumption|constructor].
  - constructor; [constructor|constructor; [constructor; [assumption|constructor; [assumption|constructor]]|constructor]].
  - intros m. eexists. split; [destruct m; vm_compute; reflexivity|]. intros m'. eexists. eexists.
    split; [destruct m'; vm_compute; reflexivity|]. split; [discriminate|reflexivity].
Qed.
Print Assumptions C45_program_descriptors_refuted.
(** reading any sender's PMT section without program descriptors *)
Theorem C45_read : forall m old p s t, has p s -> field s 0 8 = 0x02 -> (16 <= length s)%nat -> field s 84 12 = 0 -> pmt_reads s t ->
  pmt_parse m old p = Ok (pmt_add old t).
Proof.
  intros m old p s t H T L Z R. apply (P_tab2.pmt_parse_section m old p s t H T L). unfold pmt_reads, P_tab2.pmt_seen in *.
  rewrite Z in *. exact R.
Qed.
Print Assumptions C45_read.
(** and with them: the descriptors are taken from one byte before their loop *)
Definition pmt_seen (s : list N) (t : pmt) : Prop :=
  let n := N.to_nat (field s 84 12) in
  exists ds items, t = mkPmt (field s 42 5) (field s 24 16) (field s 67 13) ds items /\
    (12 + n <= length s - 4)%nat /\ loop_reads (firstn n (skipn 11 s)) ds /\ entries_read 5 pmt_read (inner (12 + n) s) items.
Theorem C45_read_one_byte_early : forall m old p s t, has p s -> field s 0 8 = 0x02 -> (16 <= length s)%nat -> pmt_seen s t ->
  pmt_parse m old p = Ok (pmt_add old t).
Proof. exact P_tab2.pmt_parse_section. Qed.
Print Assumptions C45_read_one_byte_early.
Example C45_ex : round (pmt_demux Debug (ex_pmt [])) (pmt_parse Debug) pmt_default 100 = Some (1%nat, (ex_pmt [])).
Proof. vm_compute. reflexivity. Qed.
(** a PMT in several sections *)
Definition ex_pmt_long : pmt := mkPmt 3 100 256 [] (map (fun i => mkPmtI 6 (N.of_nat i) [DRaw (mkRaw 0x05 (repeat 7 200))]) (seq 1 12)).
Example C45_ex_long : round (pmt_demux Debug ex_pmt_long) (pmt_parse Debug) pmt_default 100 = Some (15%nat, ex_pmt_long).
Proof. vm_compute. reflexivity. Qed.

(** * C46 *)
(** stream types with a fixed meaning, ISO/IEC 13818-1 table 2-34 *)
Definition fixed_types : list (N * stream_type) :=
  [(0x01, VIDEO); (0x02, VIDEO); (0x10, VIDEO); (0x1B, VIDEO); (0x24, VIDEO); (0x03, AUDIO); (0x04, AUDIO); (0x0F, AUDIO); (0x11, AUDIO)].
(** descriptors that tell what private data is *)
Definition telling (t : N) : list (N * stream_type) :=
  if t =? 0x05 then [(0x6F, AIT)]
  else if t =? 0x06 then [(0x56, TTX); (0x59, SUB); (0x6A, AUDIO); (0x7A, AUDIO); (0x81, AUDIO)] else [].
(** the first telling tag decides *)
Definition told (tb : list (N * stream_type)) (tags : list N) (k : stream_type) : Prop :=
  (exists pre t post, tags = pre ++ t :: post /\ (forall x, In x pre -> ~ In x (map fst tb)) /\ In (t, k) tb) \/
  ((forall x, In x tags -> ~ In x (map fst tb)) /\ k = DATA).
Definition classified (t : N) (tags : list N) (k : stream_type) : Prop :=
  In (t, k) fixed_types \/ (~ In t (map fst fixed_types) /\ told (telling t) tags k).
Lemma told_fixpoint tb f : (forall d r k, In (desc_tag d, k) tb -> f (d :: r) = k) ->
  (forall d r, ~ In (desc_tag d) (map fst tb) -> f (d :: r) = f r) -> f [] = DATA ->
  forall ds, told tb (map desc_tag ds) (f ds).
Proof.
  intros H1 H2 H3. induction ds as [|d ds IH].
  - right. split; [intros x []|exact H3].
  - destruct (in_dec N.eq_dec (desc_tag d) (map fst tb)) as [I|I].
    + pose proof I as I'. apply in_map_iff in I' as ([t k] & E & I'). cbn [fst] in E. subst t. rewrite (H1 d ds k I').
      left. exists [], (desc_tag d), (map desc_tag ds). split; [reflexivity|]. split; [intros x []|exact I'].
    + rewrite (H2 d ds I). destruct IH as [(pre & t & post & E & P & J)|[P J]].
      * left. exists (desc_tag d :: pre), t, post. cbn [map app]. rewrite E. split; [reflexivity|]. split; [|exact J].
        intros x [<-|Hx]; [exact I|apply P, Hx].
      * right. split; [|exact J]. intros x [<-|Hx]; [exact I|apply P, Hx].
Qed.
Theorem C46_classified : forall i, classified (pmti_type i) (map desc_tag (pmti_descs i)) (get_stream_type i).
Proof.
  intros [t pid ds]. unfold classified, get_stream_type. cbn [pmti_type pmti_descs].
  destruct (in_dec N.eq_dec t (map fst fixed_types)) as [I|I].
  - left. cbn in I. repeat destruct I as [<-|I]; try destruct I; cbn; tauto.
  - right. split; [exact I|]. unfold telling. destruct (N.eqb_spec t 5) as [->|N5].
    + apply told_fixpoint; [| |reflexivity].
      * intros d r k [E|[]]. injection E as E <-. cbn [type_05]. rewrite <- E. reflexivity.
      * intros d r Hn. cbn [type_05]. destruct (N.eqb_spec (desc_tag d) 0x6F) as [E|E]; [|reflexivity]. destruct Hn. left. symmetry. exact E.
    + destruct (N.eqb_spec t 6) as [->|N6].
      * apply told_fixpoint; [| |reflexivity].
        -- intros d r k E. cbn [type_06]. cbn in E. destruct E as [E|[E|[E|[E|[E|[]]]]]]; injection E; intros <- <-; reflexivity.
        -- intros d r Hn. cbn [type_06]. cbn [map fst In] in Hn. destruct (desc_tag d) as [|p]; [reflexivity|].
           do 8 (try destruct p as [p|p|]; try reflexivity); exfalso; apply Hn; tauto.
      * right. split; [intros x _ []|]. cbn [map fst fixed_types In] in I. destruct t as [|p]; [reflexivity|].
        do 6 (try destruct p as [p|p|]; try reflexivity); exfalso; try (apply I; tauto); congruence.
Qed.
Print Assumptions C46_classified.
(** the classification is a function of type and tags, so this determines the result *)
Theorem C46_unique : forall t tags k k', classified t tags k -> classified t tags k' -> k = k'.
Proof.
  assert (F : forall t k k', In (t, k) fixed_types -> In (t, k') fixed_types -> k = k').
  { intros t k k' H H'. cbn in H, H'. decompose [or] H; decompose [or] H'; try contradiction; congruence. }
  assert (G : forall x t k k', In (t, k) (telling x) -> In (t, k') (telling x) -> k = k').
  { intros x t k k' H H'. unfold telling in *. destruct (x =? 5); [|destruct (x =? 6); [|destruct H]];
      cbn in H, H'; decompose [or] H; decompose [or] H'; try contradiction; congruence. }
  intros t tags k k' H H'. assert (M : forall a b (l : list (N * stream_type)), In (a, b) l -> In a (map fst l)).
  { intros a b l Hl. apply in_map_iff. exists (a, b). split; [reflexivity|exact Hl]. }
  destruct H as [H|[N1 H]], H' as [H'|[N2 H']]; [eapply F; eassumption|destruct N2; eapply M; eassumption|destruct N1; eapply M; eassumption|].
  destruct H as [(pre & a & post & E & P & J)|[P J]], H' as [(pre' & a' & post' & E' & P' & J')|[P' J']].
  - assert (a = a').
    { revert pre' E' P'. subst tags. revert P. induction pre as [|x pre IH]; intros P pre' E' P'; destruct pre' as [|x' pre'].
      - cbn in E'. congruence.
      - cbn in E'. injection E' as <- _. destruct (P' a (or_introl eq_refl)). eapply M; exact J.
      - cbn in E'. injection E' as -> _. destruct (P a' (or_introl eq_refl)). eapply M; exact J'.
      - cbn [app] in E'. assert (E2 : pre ++ a :: post = pre' ++ a' :: post') by congruence. apply (IH (fun y Hy => P y (or_intror Hy)) pre' E2).
        intros y Hy. apply P'. right. exact Hy. }
    subst a'. eapply G; eassumption.
  - destruct (P' a); [rewrite E; apply in_or_app; right; left; reflexivity|eapply M; exact J].
  - destruct (P a'); [rewrite E'; apply in_or_app; right; left; reflexivity|eapply M; exact J'].
  - congruence.
Qed.
Print Assumptions C46_unique.
Example C46_ex : get_stream_type (mkPmtI 6 100 [DRaw (mkRaw 0x0A [1; 2; 3; 4]); DRaw (mkRaw 0x59 []); DRaw (mkRaw 0x56 [])]) = SUB.
Proof. reflexivity. Qed.

(** * C47 *)
Theorem C47_nit : forall m t pid cc dst, nit_ok t -> nit_fits (N.to_nat 4098) t -> loop_exact (nit_descs t) ->
  Forall (item_exact niti_descs) (nit_items t) -> nit_table t = 0x40 \/ nit_table t = 0x41 -> pid < 8192 -> cc < 16 ->
  exists groups, grouping (nit_items t) groups /\ let ss := numbered (nit_section t (N.of_nat (length groups - 1))) 0 groups in
    sends (nit_demux m t pid cc dst) pid cc dst ss /\
    forall m' p old, exists q, receive m' (nit_parse m') p old (stream pid cc ss) = Ok (q, nit_add old t).
Proof. exact W_tables.nit_whole. Qed.
Print Assumptions C47_nit.
Theorem C47_recovered : forall m t pid cc dst, nit_ok t -> nit_fits (N.to_nat 4098) t -> loop_exact (nit_descs t) ->
  Forall (item_exact niti_descs) (nit_items t) -> nit_table t = 0x40 \/ nit_table t = 0x41 -> pid < 8192 -> cc < 16 ->
  exists ss, sends (nit_demux m t pid cc dst) pid cc dst ss /\
  forall m' p, exists q, receive m' (nit_parse m') p nit_default (stream pid cc ss) = Ok (q, t).
Proof.
  intros m t pid cc dst H F D X T Hp Hc. destruct (C47_nit m t pid cc dst H F D X T Hp Hc) as (gs & _ & S & R). eexists. split; [exact S|].
  intros m' p. destruct (R m' p nit_default) as [q E]. exists q. rewrite E. destruct t; reflexivity.
Qed.
Print Assumptions C47_recovered.
Theorem C47_read : forall m old p s t, has p s -> field s 0 8 = 0x40 \/ field s 0 8 = 0x41 -> (16 <= length s)%nat -> nit_reads s t ->
  nit_parse m old p = Ok (nit_add old t).
Proof. exact P_tab2.nit_parse_section. Qed.
Print Assumptions C47_read.
Example C47_ex : round (nit_demux Debug ex_nit) (nit_parse Debug) nit_default 16 = Some (1%nat, ex_nit).
Proof. vm_compute. reflexivity. Qed.

(** * C48 *)
Theorem C48_sdt : forall m t pid cc dst, sdt_ok t -> sdt_fits (N.to_nat 4098) t -> Forall (item_exact sdti_descs) (sdt_items t) ->
  sdt_table t = 0x42 \/ sdt_table t = 0x46 -> pid < 8192 -> cc < 16 ->
  exists groups, grouping (sdt_items t) groups /\ let ss := numbered (sdt_section t (N.of_nat (length groups - 1))) 0 groups in
    sends (sdt_demux m t pid cc dst) pid cc dst ss /\
    forall m' p old, exists q, receive m' (sdt_parse m') p old (stream pid cc ss) = Ok (q, sdt_add old t).
Proof. exact W_tables.sdt_whole. Qed.
Print Assumptions C48_sdt.
Theorem C48_recovered : forall m t pid cc dst, sdt_ok t -> sdt_fits (N.to_nat 4098) t -> Forall (item_exact sdti_descs) (sdt_items t) ->
  sdt_table t = 0x42 \/ sdt_table t = 0x46 -> pid < 8192 -> cc < 16 ->
  exists ss, sends (sdt_demux m t pid cc dst) pid cc dst ss /\
  forall m' p, exists q, receive m' (sdt_parse m') p sdt_default (stream pid cc ss) = Ok (q, t).
Proof.
  intros m t pid cc dst H F X T Hp Hc. destruct (C48_sdt m t pid cc dst H F X T Hp Hc) as (gs & _ & S & R). eexists. split; [exact S|].
  intros m' p. destruct (R m' p sdt_default) as [q E]. exists q. rewrite E. destruct t; reflexivity.
Qed.
Print Assumptions C48_recovered.
Theorem C48_read : forall m old p s t, has p s -> field s 0 8 = 0x42 \/ field s 0 8 = 0x46 -> (15 <= length s)%nat -> sdt_reads s t ->
  sdt_parse m old p = Ok (sdt_add old t).
Proof. exact P_tab2.sdt_parse_section. Qed.
Print Assumptions C48_read.
(** 70 services, two sections *)
Example C48_ex : round (sdt_demux Debug (ex_sdt 70)) (sdt_parse Debug) sdt_default 17 = Some (7%nat, (ex_sdt 70)).
Proof. vm_compute. reflexivity. Qed.

(** * C52 *)
(** MJD_END: the times that 16 bits of MJD can hold, from 1970 up to 2038-04-22 23:59:59 *)
Theorem C52_tdt : forall m t pid cc dst, t < MJD_END -> pid < 8192 -> cc < 16 ->
  sends (tdt_demux m t pid cc dst) pid cc dst [tdt_bytes t] /\
  forall m' p old, exists q, receive m' (tdt_parse m') p old (stream pid cc [tdt_bytes t]) = Ok (q, t).
Proof.
  intros m t pid cc dst H Hp Hc. split; [exact (P_tot.tdt_demux_spec m t pid cc dst H Hp Hc)|].
  intros m' p old. exact (P_tot.tdt_receive m' t pid cc p old H Hc).
Qed.
Print Assumptions C52_tdt.
Theorem C52_tot : forall m t pid cc dst, tot_time t < MJD_END -> loop_ok (tot_descs t) -> (length (wire (tot_descs t)) <= N.to_nat 4084)%nat ->
  pid < 8192 -> cc < 16 ->
  sends (tot_demux m t pid cc dst) pid cc dst [tot_bytes t] /\
  (loop_exact (tot_descs t) -> forall m' p old, exists q, receive m' (tot_parse m') p old (stream pid cc [tot_bytes t]) = Ok (q, tot_add old t)).
Proof. exact W_tables.tot_whole. Qed.
Print Assumptions C52_tot.
Theorem C52_tdt_read : forall m old p t, bytes (p_buffer p) -> p_size p = 8%nat -> (8 <= length (p_buffer p))%nat ->
  field (p_buffer p) 0 8 = 0x70 -> tdt_reads (firstn 8 (p_buffer p)) t -> tdt_parse m old p = Ok t.
Proof.
  intros m old p t Hb Hz Hl T R. apply (P_tab2.tdt_parse_section m old p (firstn 8 (p_buffer p)) t Hb Hz Hl eq_refl); [|exact R].
  rewrite <- (P_tab7.tdt_field p) by lia. exact T.
Qed.
Print Assumptions C52_tdt_read.
Theorem C52_tot_read : forall m old p s t, has p s -> field s 0 8 = 0x73 -> (14 <= length s)%nat -> tot_reads s t ->
  tot_parse m old p = Ok (tot_add old t).
Proof. exact P_tab2.tot_parse_section. Qed.
Print Assumptions C52_tot_read.
(** 2023-11-14 22:13:20 *)
Example C52_ex : exists pk, tdt_demux Debug 1700000000 20 0 [] = Ok (1, pk) /\ firstn 13 pk = [0x47; 0x40; 20; 0x10; 0; 0x70; 0x70; 5; 0xEB; 0x66; 0x22; 0x13; 0x20] /\
  exists q, receive Debug (tdt_parse Debug) psi_default 0 [pk] = Ok (q, 1700000000).
Proof. eexists. split; [vm_compute; reflexivity|]. split; [reflexivity|]. eexists. vm_compute. reflexivity. Qed.
Definition ex_tot : tot := mkTot 1700000000 [D58 [mk58i (mkDvb 0 [0x47; 0x42; 0x52]) 3 1 60 1332633600 0]].
Example C52_ex_tot : round (tot_demux Debug ex_tot) (tot_parse Debug) tot_default 20 = Some (1%nat, ex_tot).
Proof. vm_compute. reflexivity. Qed.
