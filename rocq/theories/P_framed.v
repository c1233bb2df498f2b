(** Proofs: what a sender sends for any table. *)
From Verif Require Import Prelude Layout Facts S_ts S_crc S_psi S_text S_utils S_desc M_bytes M_ts M_crc M_utils M_text M_psi M_drive M_desc M_tables S_tables Props_tables
  P_crc P_psi P_sect P_tab P_tab3 P_eit3 S_sender P_sender P_sender2 P_sender3 P_sender4 S_framed.

Lemma st_and {A} s (e : res A) (Q R : A -> Prop) : st s e Q -> (forall a, e = Ok a -> R a) -> st s e (fun a => Q a /\ R a).
Proof. unfold st. destruct s; [auto|]. intros (a & E & q) H. exists a. auto. Qed.
Lemma st_use {A} s (e : res A) Q a : st s e Q -> e = Ok a -> Q a.
Proof. unfold st. destruct s; [congruence|]. intros (b & E & q) H. congruence. Qed.
Lemma bind_ok {A C} (e : res A) (k : A -> res C) r : bind e k = Ok r -> exists a, e = Ok a /\ k a = Ok r.
Proof. destruct e; cbn [bind]; [eauto|discriminate|discriminate]. Qed.

(** ** finishing *)
Lemma fin p b0 b1 b2 t : p_buffer p = b0 :: b1 :: b2 :: t -> sec 8 p ->
  exists s x y c, psi_finalize p = Ok (mkPsi s (length s) (p_pid p) (p_cc p)) /\ s = b0 :: x :: y :: t ++ c /\ framed s /\ length s = (length (p_buffer p) + 4)%nat.
Proof.
  intros E (L & H & Z). pose proof H as Hb. rewrite E in Hb. apply bytes_cons in Hb as [H0 Hb]. apply bytes_cons in Hb as [H1 Hb]. apply bytes_cons in Hb as [H2 Ht].
  set (w := N.lor (shlw U16 (N.land b1 240) 8) (cast U16 (N.of_nat (length (p_buffer p) + 4 - 3)))).
  set (body := b0 :: cast U8 (N.shiftr w 8) :: cast U8 w :: t).
  assert (Bb : bytes body) by (unfold body; repeat (apply bytes_cons; split); try apply cast8; assumption).
  assert (Lb : length body = length (p_buffer p)) by (rewrite E; reflexivity).
  assert (F : psi_finalize p = psi_finalize (mkPsi (body ++ repeat 0 4) (length body + 4) (p_pid p) (p_cc p))).
  { unfold psi_finalize. cbn [p_size p_buffer p_pid p_cc]. rewrite Z. change (0 =? 0)%nat with true. cbn match. cbv zeta.
    rewrite resize_grow by lia. replace (length (p_buffer p) + 4 - length (p_buffer p))%nat with 4%nat by lia. rewrite E at 1.
    change (get ((b0 :: b1 :: b2 :: t) ++ repeat 0 4) 1) with (Ok b1). cbn [bind].
    unfold sub_idx at 1. destruct (Nat.leb_spec 3 (length (p_buffer p) + 4)); [|lia]. cbn [bind]. fold w. rewrite E at 1.
    change (set_u16_at ((b0 :: b1 :: b2 :: t) ++ repeat 0 4) 1 w) with (Ok (body ++ repeat 0 4)). cbn [bind p_size p_buffer].
    rewrite Lb. destruct (Nat.eqb_spec (length (p_buffer p) + 4) 0); [lia|]. cbn [bind p_size p_buffer p_pid p_cc]. reflexivity. }
  rewrite (finalize_sized (mkPsi (body ++ repeat 0 4) (length body + 4) (p_pid p) (p_cc p)) body (repeat 0 4)) in F by (try reflexivity; try assumption; cbn; lia).
  cbn [with_buffer p_size p_buffer p_pid p_cc] in F.
  set (c := to_be 4 (crc_spec body)) in *. assert (Lc : length c = 4%nat) by apply to_be_length. assert (Ls : length (body ++ c) = (length body + 4)%nat) by (rewrite app_length; lia).
  exists (body ++ c), (cast U8 (N.shiftr w 8)), (cast U8 w), c. split; [rewrite Ls; exact F|]. split; [reflexivity|]. split; [|lia].
  split; [apply bytes_app; split; [exact Bb|apply to_be_bytes]|]. split; [lia|]. split.
  - apply crc_suffix; [exact Bb|apply to_be_bytes|exact Lc|]. unfold c. rewrite be_to_be. apply N.mod_small. exact (crc_spec_lt _).
  - intros M. assert (G : body ++ c = finished (p_buffer p)).
    { pose proof (finalize_new p Z H ltac:(lia)) as N1. rewrite F in N1. injection N1 as N1 _. exact N1. }
    rewrite G. apply (finished_ok (p_buffer p) H). lia.
Qed.
(** the section made of an unfinished one *)
Definition made (k last : N) (p : psi) (s : list N) : Prop :=
  framed s /\ length s = (length (p_buffer p) + 4)%nat /\
  exists x y c, s = nth 0 (p_buffer p) 0 :: x :: y :: nth 3 (p_buffer p) 0 :: nth 4 (p_buffer p) 0 :: nth 5 (p_buffer p) 0 :: k mod 256 :: last :: c.
Ltac eight b L := do 8 (destruct b as [|? b]; [cbn [length] in L; exfalso; lia|]).
Lemma sections_made m last pid : pid < 8192 -> last < 256 -> forall l n cc dst, cc < 16 -> Forall (sec 8) l ->
  exists ss, sends (demux_sections m last pid n l cc dst) pid cc dst ss /\ length ss = length l /\
    forall i p s, nth_error l i = Some p -> nth_error ss i = Some s -> made (N.of_nat (n + i)) last p s.
Proof.
  intros Hp Hla. induction l as [|p l IH]; intros n cc dst Hc F.
  - exists []. unfold sends. cbn [demux_sections stream concat]. rewrite app_nil_r, next_nil by assumption. split; [reflexivity|]. split; [reflexivity|]. intros [|i]; discriminate.
  - inversion F as [|? ? FP F']; subst. cbn [demux_sections].
    pose proof (proj1 FP) as L. pose proof (set_67 (p_buffer p) (N.of_nat n) last L) as E6.
    destruct (set (p_buffer p) 6 (cast U8 (N.of_nat n))) as [c| |]; try discriminate. cbn [bind] in E6 |- *. unfold sends. rewrite E6. cbn [bind].
    set (b := stamp (N.of_nat n) last (p_buffer p)). assert (Lb : length b = length (p_buffer p)) by (apply stamp_length; lia).
    assert (Bb : bytes b) by (apply stamp_bytes; [apply FP|assumption]).
    assert (Eb : exists t, b = nth 0 (p_buffer p) 0 :: nth 1 (p_buffer p) 0 :: nth 2 (p_buffer p) 0 :: nth 3 (p_buffer p) 0 :: nth 4 (p_buffer p) 0 :: nth 5 (p_buffer p) 0 :: N.of_nat n mod 256 :: last :: t).
    { unfold b. destruct (p_buffer p) as [|? [|? [|? [|? [|? [|? [|? [|? u]]]]]]]]; cbn [length] in L; try (exfalso; lia). exists u. reflexivity. }
    destruct Eb as (t & Eb).
    destruct (fin (with_buffer p b) _ _ _ _ Eb) as (s & x & y & cr & D1 & D2 & D3 & D4).
    { split; [|split]; cbn [with_buffer p_buffer p_size]; [lia|exact Bb|apply FP]. }
    rewrite D1. cbn [bind with_buffer p_pid p_cc].
    destruct (send_one m (mkPsi s (length s) (p_pid p) (p_cc p)) pid cc dst s) as (q & E & Eq); try assumption; try reflexivity.
    { apply D3. } { rewrite D2. discriminate. }
    rewrite E. cbn [bind]. rewrite Eq.
    destruct (IH (S n) ((cc + N.of_nat (length (section_packets pid cc s))) mod 16) (dst ++ concat (section_packets pid cc s))) as (ss & S1 & S2 & S3); [apply N.mod_lt; discriminate|assumption|].
    exists (s :: ss). split; [|split].
    + unfold sends in S1. rewrite S1. rewrite stream_cons, concat_app, app_assoc. rewrite (stream_next pid cc) by assumption. reflexivity.
    + cbn [length]. lia.
    + intros [|i] p' s' A B'; cbn [nth_error] in A, B'.
      * injection A as <-. injection B' as <-. rewrite Nat.add_0_r. split; [exact D3|]. split; [cbn [with_buffer p_buffer] in D4; lia|]. exists x, y, (t ++ cr). exact D2.
      * replace (n + S i)%nat with (S n + i)%nat by lia. exact (S3 i p' s' A B').
Qed.
(** the header of a section under construction *)
Definition hsec (table sb ident version : N) (p : psi) : Prop := sec 8 p /\ ext (head8 table sb ident version 0 0) (p_buffer p).
Lemma version_bits v : v < 256 -> N.lor (N.lor 0xC0 (N.land (shlw U8 v 1) 0x3E)) 0x01 = 193 + 2 * (v mod 32).
Proof. intros H. apply N.eqb_eq. revert v H. apply (sweep 256). vm_compute. reflexivity. Qed.
Lemma ident_hi v : v < 2 ^ 16 -> cast U8 (N.shiftr v 8) = v / 256.
Proof. intros H. unfold cast, U8. rewrite N.shiftr_div_pow2. change (2 ^ 8) with 256. apply N.mod_small. change (2 ^ 16) with 65536 in H. dlia. Qed.
Lemma made_starts k n table sb ident version p s : ident < 2 ^ 16 -> version < 2 ^ 8 -> hsec table sb ident version p -> made k (n mod 256) p s -> starts s table ident version k n.
Proof.
  intros HI HV (_ & (t & E)) (_ & _ & (x & y & c & S)). rewrite E in S. unfold head8 in S. cbn [app nth] in S. exists x, y, c.
  rewrite S, ident_hi, version_bits by assumption. reflexivity.
Qed.
Lemma table_series m l pid cc dst table sb ident version : pid < 8192 -> cc < 16 -> ident < 2 ^ 16 -> version < 2 ^ 8 -> l <> [] -> Forall (hsec table sb ident version) l ->
  exists ss, sends (demux_table m l pid cc dst) pid cc dst ss /\ length ss = length l /\ series ss table ident version /\
    forall i p s, nth_error l i = Some p -> nth_error ss i = Some s -> length s = (length (p_buffer p) + 4)%nat.
Proof.
  intros Hp Hc HI HV N F. unfold demux_table. destruct l as [|p0 l0]; [congruence|]. set (l := p0 :: l0) in *. clearbody l. clear N p0 l0.
  destruct (sections_made m (cast U8 (N.of_nat (length l - 1))) pid Hp (cast8 _) l 0 cc dst Hc) as (ss & S1 & S2 & S3).
  { eapply Forall_impl; [|exact F]. intros p HP. apply HP. }
  exists ss. split; [exact S1|]. split; [exact S2|].
  assert (PA : forall i s, nth_error ss i = Some s -> exists p, nth_error l i = Some p /\ hsec table sb ident version p /\ made (N.of_nat i) (cast U8 (N.of_nat (length l - 1))) p s).
  { intros i s Hs. destruct (nth_error l i) as [p|] eqn:EP.
    - exists p. split; [reflexivity|]. split; [apply nth_error_In in EP; exact (proj1 (Forall_forall _ _) F p EP)|]. exact (S3 i p s EP Hs).
    - apply nth_error_None in EP. assert (nth_error ss i <> None) by congruence. apply nth_error_Some in H. lia. }
  split; [split|].
  - apply Forall_forall. intros s Is. apply In_nth_error in Is. destruct Is as (i & Hi). destruct (PA i s Hi) as (p & _ & _ & M). apply M.
  - intros i s Hs. destruct (PA i s Hs) as (p & _ & Hh & M). rewrite S2. eapply made_starts; [exact HI|exact HV|exact Hh|exact M].
  - intros i p s A1 A2. apply (S3 i p s A1 A2).
Qed.

(** ** items behind what is there *)
Lemma K_fine b (e : res (list N)) r : K b e -> e = Ok r -> ext b r. Proof. intros H ->. exact H. Qed.
Lemma K_pati i b : K b (pat_item_assemble i b).
Proof. unfold pat_item_assemble. cbv zeta. pose proof (ext_resize _ _ 4 (ext_refl b)). ks. k1. Qed.
Ltac kloop ds := unfold descs_assemble; cbv zeta; match goal with H : ext ?b ?a |- K _ (bind (bind (descs_bytes ?m _ ?a) _) _) =>
  let D := fresh in pose proof (K_descs m ds b a H) as D; destruct (descs_bytes m ds a); cbn [bind]; [|exact I|exact I]; cbn [K] in D end.
Lemma K_pmti m i b : K b (pmt_item_assemble m i b).
Proof. unfold pmt_item_assemble. cbv zeta. pose proof (ext_resize _ _ 5 (ext_refl b)). ks. ks. kloop (pmti_descs i). k1. Qed.
Lemma K_sdti m i b : K b (sdt_item_assemble m i b).
Proof. unfold sdt_item_assemble. cbv zeta. pose proof (ext_resize _ _ 5 (ext_refl b)). ks. ks. kloop (sdti_descs i). k1. Qed.
Lemma K_eiti m i b : K b (eit_item_assemble m i b).
Proof. unfold eit_item_assemble. cbv zeta. pose proof (ext_resize _ _ 12 (ext_refl b)). do 7 ks. kloop (eiti_descs i). k1. Qed.
Lemma st_ext s b e Q : st s e Q -> K b e -> st s e (fun r => Q r /\ ext b r).
Proof. intros H X. apply st_and; [exact H|]. intros a E. exact (K_fine _ _ _ X E). Qed.

(** ** packing, with what is known when an item is added and when a section is opened *)
Section Pack.
Context {A : Type} (limit : nat) (size : A -> nat) (assemble : A -> list N -> res (list N)) (init : res psi) (ok : A -> Prop) (over : A -> bool)
  (P P0 : psi -> Prop) (m : mode)
  (Hi : st false init P0)
  (Hn : forall i p, ok i -> P0 p -> st (dbg m && over i) (assemble i (p_buffer p)) (fun b => P (with_buffer p b)))
  (Ha : forall i p, ok i -> P p -> (length (p_buffer p) + size i <= limit)%nat -> st (dbg m && over i) (assemble i (p_buffer p)) (fun b => P (with_buffer p b))).
Lemma st_pack2 : forall items done cur, Forall ok items -> Forall P done -> P cur ->
  st (dbg m && existsb over items) (pack limit size assemble init items done cur) (fun l => Forall P l /\ l <> []).
Proof.
  induction items as [|i r IH]; intros done cur Ho Hd Hc; cbn [pack existsb].
  - rewrite andb_false_r. apply st_ok. split; [apply Forall_app; split; [exact Hd|constructor; [exact Hc|constructor]]|]. destruct done; discriminate.
  - inversion Ho as [|? ? O1 O2]; subst. rewrite andb_orb_distrib_r. destruct (Nat.leb_spec (length (p_buffer cur) + size i) limit) as [L|L].
    + eapply st_bind; [apply Ha; [exact O1|exact Hc|exact L]|]. intros b Hb. exact (IH done _ O2 Hd Hb).
    + eapply st_seq; [exact Hi|]. intros n N1. eapply st_bind; [apply Hn; [exact O1|exact N1]|]. intros b Hb.
      apply IH; [exact O2| |exact Hb]. apply Forall_app. split; [exact Hd|constructor; [exact Hc|constructor]].
Qed.
End Pack.

(** a section with its header and, if [fits], a limited length *)
Definition hlim (table sb ident version : N) (fits : Prop) (p : psi) : Prop := hsec table sb ident version p /\ (fits -> (length (p_buffer p) <= SECTION_SIZE)%nat).
Definition hlen (table sb ident version : N) (k : nat) (p : psi) : Prop := hsec table sb ident version p /\ length (p_buffer p) = k.
Lemma sum_honest ds : honest ds -> (sum written ds <= sum said ds)%nat.
Proof. induction 1 as [|d ds H _ IH]; [apply Nat.le_refl|]. unfold sum in *. cbn [fold_right]. lia. Qed.
Lemma ext_head table sb ident version b r : ext (head8 table sb ident version 0 0) b -> ext b r -> ext (head8 table sb ident version 0 0) r.
Proof. intros H1 H2. eapply ext_trans; eassumption. Qed.
Lemma limit_1020 k : (k <= SECTION_SIZE)%nat <-> (k + 4 <= N.to_nat 1024)%nat.
Proof. unfold SECTION_SIZE. lia. Qed.
(** an item of header [h] and loop [ds] *)
Lemma st_grow s (f : list N -> res (list N)) table sb ident version (fits : Prop) h ds p :
  (forall n b, B n b -> st s (f b) (B (n + (h + sum written ds)))) -> (forall b, K b (f b)) -> hsec table sb ident version p ->
  (fits -> (length (p_buffer p) + (h + sum written ds) <= SECTION_SIZE)%nat) ->
  st s (f (p_buffer p)) (fun b => hlim table sb ident version fits (with_buffer p b)).
Proof.
  intros F X (S & E) L. eapply st_weak; [apply (st_ext s (p_buffer p)); [apply F; eapply B_self; exact S|apply X]|]. intros b (Hb & Eb). split.
  - split; [eapply sec_add; [exact S|exact Hb]|]. cbn [with_buffer p_buffer]. eapply ext_head; eassumption.
  - intros Hf. cbn [with_buffer p_buffer]. rewrite (B_at _ _ Hb). exact (L Hf).
Qed.

(** ** PAT *)
Lemma K_pat_fill items b0 : forall b, ext b0 b -> K b0 (pat_fill items b).
Proof.
  induction items as [|i r IH]; intros b H; cbn [pat_fill]; [exact H|]. destruct (SECTION_SIZE <? length b + pat_item_size i)%nat; [exact H|].
  eapply K_step; [eapply K_trans; [exact H|apply K_pati]|]. exact (IH).
Qed.
Lemma st_pat_limit items : forall n b, B n b -> (8 <= n <= SECTION_SIZE)%nat -> st false (pat_fill items b) (fun b => (8 <= length b <= SECTION_SIZE)%nat /\ bytes b).
Proof.
  induction items as [|i r IH]; intros n b H L; cbn [pat_fill].
  - apply st_ok. destruct H. split; [lia|assumption].
  - destruct (Nat.ltb_spec SECTION_SIZE (length b + pat_item_size i)) as [M|M].
    + apply st_ok. destruct H. split; [lia|assumption].
    + eapply st_seq; [apply st_pati; exact H|]. intros a A. apply (IH _ _ A). rewrite (B_at _ _ H) in M. unfold pat_item_size in M. lia.
Qed.
Lemma pat_framed m t pid cc dst : pat_typed t -> pid < 8192 -> cc < 16 ->
  exists s, sends (pat_demux m t pid cc dst) pid cc dst [s] /\ series [s] 0x00 (pat_tsid t) (pat_version t) /\ (length s <= N.to_nat 1024)%nat.
Proof.
  intros (T1 & T2 & T3) Hp Hc. unfold pat_demux.
  assert (S : st false (pat_sections m t) (fun l => exists p, l = [p] /\ hsec 0x00 176 (pat_tsid t) (pat_version t) p /\ (length (p_buffer p) <= SECTION_SIZE)%nat)).
  { unfold pat_sections. change 8%nat with (8 + 0)%nat. rewrite psi_new_spec. cbn [bind p_buffer]. rewrite head_ident. cbn [bind].
    assert (B8 : B 8 (head8 0 176 (pat_tsid t) (pat_version t) 0 0 ++ repeat 0 0)).
    { split; [reflexivity|]. cbn [repeat]. rewrite app_nil_r. unfold head8. repeat (apply bytes_cons; split); try apply cast8; try reflexivity; try constructor.
      apply lor8; [apply lor8; [reflexivity|apply land_lt_r; reflexivity]|reflexivity]. }
    eapply st_seq; [apply st_ext; [apply (st_pat_limit (pat_items t) 8); [exact B8|split; [apply Nat.le_refl|apply Nat.leb_le; vm_compute; reflexivity]]|apply K_pat_fill, ext_refl]|].
    intros b ((L & Hb) & E). apply st_ok. eexists. split; [reflexivity|]. split; [|cbn [with_buffer p_buffer]; apply L].
    split; [split; [|split]; cbn [with_buffer p_buffer p_size]; [apply L|exact Hb|reflexivity]|]. cbn [with_buffer p_buffer]. rewrite app_nil_r in E. exact E. }
  destruct S as (l & E & (p & -> & HP & L)). rewrite E. cbn [bind].
  destruct (table_series m [p] pid cc dst 0x00 176 (pat_tsid t) (pat_version t) Hp Hc T2 T1 ltac:(discriminate) ltac:(constructor; [exact HP|constructor])) as (ss & S1 & S2 & S3 & S4).
  destruct ss as [|s [|? ?]]; try discriminate. exists s. split; [exact S1|]. split; [exact S3|]. rewrite (S4 0%nat p s eq_refl eq_refl). apply limit_1020. exact L.
Qed.

(** ** PMT, NIT, SDT *)
Ltac bytes8 := unfold head8; cbn [app repeat]; repeat (apply bytes_cons; split); try apply cast8; try reflexivity; try assumption; try constructor;
  try (apply lor8; [apply lor8; [reflexivity|apply land_lt_r; reflexivity]|reflexivity]).
Lemma pmt_init_head m t first p : pmt_init m t first = Ok p -> ext (head8 0x02 176 (pmt_pnr t) (pmt_version t) 0 0) (p_buffer p).
Proof.
  unfold pmt_init. change 12%nat with (8 + 4)%nat. rewrite psi_new_spec. cbn [bind p_buffer]. rewrite head_ident. cbn [bind].
  set (h := head8 2 176 (pmt_pnr t) (pmt_version t) 0 0). assert (L : length h = 8%nat) by reflexivity. clearbody h. intros H.
  assert (X : K h (r <- set_u16_at (h ++ repeat 0 4) 8 (N.lor 57344 (pmt_pcr t)) ;; if first then ' (b, n) <- descs_assemble m (pmt_descs t) r;; set_u16_at b 10 (N.lor 61440 (cast U16 (N.of_nat n))) else set r 10 240)).
  { assert (ext h (h ++ repeat 0 4)) by (eexists; reflexivity). ks. destruct first; [kloop (pmt_descs t)|]; k1. }
  apply bind_ok in H. destruct H as (a & A1 & A2). apply bind_ok in A2. destruct A2 as (c & C1 & C2). rewrite A1 in X. cbn [bind] in X. rewrite C1 in X. injection C2 as <-. exact X.
Qed.
Lemma nit_init_head m t first p : nit_init m t first = Ok p -> ext (head8 (nit_table t) 240 (nit_network t) (nit_version t) 0 0) (p_buffer p).
Proof.
  unfold nit_init. change 10%nat with (8 + 2)%nat at 1. rewrite psi_new_spec. cbn [bind p_buffer]. rewrite head_dvb. cbn [bind]. rewrite head_ident. cbn [bind].
  set (h := head8 (nit_table t) 240 (nit_network t) (nit_version t) 0 0). assert (L : length h = 8%nat) by reflexivity. clearbody h. intros H.
  assert (X : K h (if first then ' (b, n) <- descs_assemble m (nit_descs t) (h ++ repeat 0 2);; set_u16_at b 8 (N.lor 61440 (cast U16 (N.of_nat n))) else set (h ++ repeat 0 2) 8 240)).
  { assert (ext h (h ++ repeat 0 2)) by (eexists; reflexivity). destruct first; [kloop (nit_descs t)|]; k1. }
  apply bind_ok in H. destruct H as (c & C1 & C2). rewrite C1 in X. injection C2 as <-. cbn [with_buffer p_buffer]. repeat apply ext_app. exact X.
Qed.
Lemma sdt_init_head m t p : sdt_init m t = Ok p -> ext (head8 (sdt_table t) 240 (sdt_tsid t) (sdt_version t) 0 0) (p_buffer p) /\ length (p_buffer p) = 11%nat.
Proof.
  unfold sdt_init. change 11%nat with (8 + 3)%nat at 1. rewrite psi_new_spec. cbn [bind p_buffer]. rewrite head_dvb. cbn [bind]. rewrite head_ident. cbn [bind].
  intros H. injection H as <-. split; [eexists; reflexivity|reflexivity].
Qed.
Lemma eit_init_head m t p : eit_init m t = Ok p -> ext (head8 (eit_table t) 240 (eit_pnr t) (eit_version t) 0 0) (p_buffer p).
Proof.
  unfold eit_init. change 14%nat with (8 + 6)%nat at 1. rewrite psi_new_spec. cbn [bind p_buffer]. rewrite head_dvb. cbn [bind]. rewrite head_ident. cbn [bind].
  intros H. injection H as <-. eexists; reflexivity.
Qed.

Definition hsect (table sb ident version : N) (n : nat) (p : psi) : Prop := hsec table sb ident version p /\ length (p_buffer p) = n.
Lemma hsect_of table sb ident version n p : (8 <= n)%nat -> sect n p -> ext (head8 table sb ident version 0 0) (p_buffer p) -> hsect table sb ident version n p.
Proof. intros L ((H & X) & Z) E. split; [split; [split; [lia|split; assumption]|exact E]|exact H]. Qed.
(** one section behind another *)
Lemma series_lim m l pid cc dst table sb ident version (fits : Prop) e : pid < 8192 -> cc < 16 -> ident < 2 ^ 16 -> version < 2 ^ 8 ->
  e = Ok l -> Forall (hlim table sb ident version fits) l /\ l <> [] ->
  exists ss, sends (l <- e ;; demux_table m l pid cc dst) pid cc dst ss /\ ss <> [] /\ series ss table ident version /\ (fits -> Forall (fun s => (length s <= N.to_nat 1024)%nat) ss).
Proof.
  intros Hp Hc HI HV -> (F & N). cbn [bind].
  destruct (table_series m l pid cc dst table sb ident version Hp Hc HI HV N) as (ss & S1 & S2 & S3 & S4); [eapply Forall_impl; [|exact F]; intros p X; apply X|].
  exists ss. split; [exact S1|]. split; [destruct ss; [destruct l; [congruence|discriminate]|discriminate]|]. split; [exact S3|]. intros HF. apply Forall_forall. intros s Is.
  apply In_nth_error in Is. destruct Is as (i & Hi). destruct (nth_error l i) as [p|] eqn:EP.
  - rewrite (S4 i p s EP Hi). apply limit_1020. apply nth_error_In in EP. exact (proj2 (proj1 (Forall_forall _ _) F p EP) HF).
  - apply nth_error_None in EP. assert (X : nth_error ss i <> None) by congruence. apply nth_error_Some in X. lia.
Qed.

Lemma hpmt_init m t first : pmt_typed t -> st (dbg m && (first && loop_over (pmt_descs t))) (pmt_init m t first)
  (hsect 0x02 176 (pmt_pnr t) (pmt_version t) (12 + if first then sum written (pmt_descs t) else 0)).
Proof.
  intros T. eapply st_weak; [apply st_and; [|intros a E; exact (pmt_init_head m t first a E)]|].
  - instantiate (1 := sect (12 + if first then sum written (pmt_descs t) else 0)).
    destruct T as (T1 & T2 & T3 & T4 & T5). unfold pmt_init. eapply st_seq; [apply st_psi_new; [reflexivity|lia]|]. intros p (P1 & P2). do 2 step. destruct first; cbn [andb].
    + eapply st_then with (Q := B (12 + sum written (pmt_descs t))); [|intros b Hb; apply st_ok; split; [exact Hb|exact P2]].
      loop T4. fin. auto.
    + rewrite andb_false_r. step. apply st_ok. split; [cbn [with_buffer p_buffer]; assumption|exact P2].
  - intros p (X1 & X2). apply hsect_of; [lia|exact X1|exact X2].
Qed.
Lemma pmt_made m t : pmt_typed t -> st (dbg m && (loop_over (pmt_descs t) || existsb (fun i => loop_over (pmti_descs i)) (pmt_items t))) (pmt_sections m t)
  (fun l => Forall (hlim 0x02 176 (pmt_pnr t) (pmt_version t) (pmt_fits t)) l /\ l <> []).
Proof.
  intros T. unfold pmt_sections. rewrite andb_orb_distrib_r. eapply st_bind; [exact (hpmt_init m t true T)|]. intros p (P1 & P2).
  eapply (st_pack2 _ _ _ _ (fun i => (pmti_type i < 2 ^ 8 /\ descs_typed (pmti_descs i)) /\ (pmt_fits t -> room (N.to_nat 1024) 17 (pmti_descs i))) (fun i => loop_over (pmti_descs i))).
  - pose proof (hpmt_init m t false T) as H. cbn [andb] in H. rewrite andb_false_r in H. exact H.
  - intros i q ((O1 & O2) & O3) (Q1 & Q2). apply st_grow with (h := 5%nat) (ds := pmti_descs i); [intros n b; apply st_pmti; assumption|intros b; apply K_pmti|exact Q1|].
    intros F. apply O3 in F. apply limit_1020. destruct F as (_ & F). lia.
  - intros i q ((O1 & O2) & O3) (Q1 & Q2) L. apply st_grow with (h := 5%nat) (ds := pmti_descs i); [intros n b; apply st_pmti; assumption|intros b; apply K_pmti|exact Q1|].
    intros F. apply O3 in F. destruct F as (F & _). apply sum_honest in F. unfold pmt_item_size in L. rewrite descs_said in L. lia.
  - destruct T as (_ & _ & _ & _ & T5). apply Forall_forall. intros i I. split; [destruct (proj1 (Forall_forall _ _) T5 i I) as (X1 & _ & X2); auto|].
    intros (_ & F). exact (proj1 (Forall_forall _ _) F i I).
  - constructor.
  - split; [exact P1|]. intros ((_ & F) & _). apply limit_1020. lia.
Qed.
Lemma pmt_framed m t pid cc dst r : pmt_typed t -> pid < 8192 -> cc < 16 -> pmt_demux m t pid cc dst = Ok r ->
  exists ss, sends (pmt_demux m t pid cc dst) pid cc dst ss /\ ss <> [] /\ series ss 0x02 (pmt_pnr t) (pmt_version t) /\ (pmt_fits t -> Forall (fun s => (length s <= N.to_nat 1024)%nat) ss).
Proof.
  intros T Hp Hc R. pose proof R as R'. unfold pmt_demux in R'. apply bind_ok in R'. destruct R' as (l & E & _). unfold pmt_demux.
  eapply series_lim; [assumption|assumption|apply T|apply T|exact E|]. exact (st_use _ _ _ _ (pmt_made m t T) E).
Qed.

Lemma hsdt_init m t : sdt_typed t -> st false (sdt_init m t) (hsect (sdt_table t) 240 (sdt_tsid t) (sdt_version t) 11).
Proof.
  intros T. eapply st_weak; [apply st_and; [exact (st_sdt_init m t T)|intros a E; exact (sdt_init_head m t a E)]|]. intros p (X1 & X2 & X3). split; [split; assumption|exact X3].
Qed.
Lemma sdt_made m t : sdt_typed t -> st (dbg m && existsb (fun i => loop_over (sdti_descs i)) (sdt_items t)) (sdt_sections m t)
  (fun l => Forall (hlim (sdt_table t) 240 (sdt_tsid t) (sdt_version t) (sdt_fits t)) l /\ l <> []).
Proof.
  intros T. unfold sdt_sections. eapply st_seq; [exact (hsdt_init m t T)|]. intros p (P1 & P2).
  eapply (st_pack2 _ _ _ _ (fun i => (sdti_pf i < 2 ^ 8 /\ descs_typed (sdti_descs i)) /\ (sdt_fits t -> room (N.to_nat 1024) 16 (sdti_descs i))) (fun i => loop_over (sdti_descs i))).
  - exact (hsdt_init m t T).
  - intros i q ((O1 & O2) & O3) (Q1 & Q2). apply st_grow with (h := 5%nat) (ds := sdti_descs i); [intros n b; apply st_sdti; assumption|intros b; apply K_sdti|exact Q1|].
    intros F. apply O3 in F. apply limit_1020. destruct F as (_ & F). lia.
  - intros i q ((O1 & O2) & O3) (Q1 & Q2) L. apply st_grow with (h := 5%nat) (ds := sdti_descs i); [intros n b; apply st_sdti; assumption|intros b; apply K_sdti|exact Q1|].
    intros F. apply O3 in F. destruct F as (F & _). apply sum_honest in F. unfold sdt_item_size in L. rewrite descs_said in L. lia.
  - destruct T as (_ & _ & _ & _ & T5). apply Forall_forall. intros i I. split; [destruct (proj1 (Forall_forall _ _) T5 i I) as (_ & _ & X1 & _ & _ & X2); auto|].
    intros F. exact (proj1 (Forall_forall _ _) F i I).
  - constructor.
  - split; [exact P1|]. intros _. rewrite P2. apply Nat.leb_le. vm_compute. reflexivity.
Qed.
Lemma sdt_framed m t pid cc dst r : sdt_typed t -> pid < 8192 -> cc < 16 -> sdt_demux m t pid cc dst = Ok r ->
  exists ss, sends (sdt_demux m t pid cc dst) pid cc dst ss /\ ss <> [] /\ series ss (sdt_table t) (sdt_tsid t) (sdt_version t) /\ (sdt_fits t -> Forall (fun s => (length s <= N.to_nat 1024)%nat) ss).
Proof.
  intros T Hp Hc R. pose proof R as R'. unfold sdt_demux in R'. apply bind_ok in R'. destruct R' as (l & E & _). unfold sdt_demux.
  eapply series_lim; [assumption|assumption|apply T|apply T|exact E|]. exact (st_use _ _ _ _ (sdt_made m t T) E).
Qed.

(** NIT: the loop length of what is there *)
Definition nlim (t : nit) (p : psi) : Prop := nsec p /\ hlim (nit_table t) 240 (nit_network t) (nit_version t) (nit_fits t) p.
Lemma nit_len m t first p : nit_typed t -> nit_init m t first = Ok p -> length (p_buffer p) = (12 + if first then sum written (nit_descs t) else 0)%nat.
Proof.
  intros T E. assert (S : st (dbg m && (first && loop_over (nit_descs t))) (nit_init m t first) (fun p => length (p_buffer p) = (12 + if first then sum written (nit_descs t) else 0)%nat)).
  { destruct T as (T1 & T2 & T3 & T4 & T5). unfold nit_init. eapply st_seq; [apply st_psi_new; [exact T1|lia]|]. intros q (P1 & P2). do 2 step. destruct first; cbn [andb].
    - eapply st_then with (Q := B (10 + sum written (nit_descs t))); [|intros b Hb; apply st_ok; cbn [with_buffer p_buffer]; rewrite !app_length, (B_at _ _ Hb); cbn [length]; lia].
      loop T4. fin. auto.
    - rewrite andb_false_r. step. apply st_ok. cbn [with_buffer p_buffer]. rewrite !app_length. match goal with X : B 10 ?a |- context[length ?a] => rewrite (B_at _ _ X) end. reflexivity. }
  exact (st_use _ _ _ _ S E).
Qed.
Lemma hnit_init m t first : nit_typed t -> st (dbg m && (first && loop_over (nit_descs t))) (nit_init m t first)
  (fun p => nsec p /\ hsect (nit_table t) 240 (nit_network t) (nit_version t) (12 + if first then sum written (nit_descs t) else 0) p).
Proof.
  intros T.
  eapply st_weak; [apply st_and; [exact (st_nit_init m t first T)|intros a E; exact (conj (nit_init_head m t first a E) (nit_len m t first a T E))]|].
  intros p (X1 & X2 & X3). split; [exact X1|]. split; [split; [|exact X2]|exact X3]. destruct X1 as ((L & H & Z) & _). split; [lia|split; assumption].
Qed.
Lemma nit_add m i t q : descs_typed (niti_descs i) -> nsec q -> hsec (nit_table t) 240 (nit_network t) (nit_version t) q ->
  (nit_fits t -> (length (p_buffer q) + (6 + sum written (niti_descs i)) <= SECTION_SIZE)%nat) ->
  st (dbg m && loop_over (niti_descs i)) (nit_item_assemble m i (p_buffer q)) (fun b => nlim t (with_buffer q b)).
Proof.
  intros O2 (Q & QL) H L. pose proof (st_grow (dbg m && loop_over (niti_descs i)) (nit_item_assemble m i) _ _ _ _ (nit_fits t) 6 (niti_descs i) q (fun n b X => st_niti m i n b O2 X) (K_niti m i) H L) as G.
  eapply st_weak; [apply st_and; [apply st_and; [exact G|]|]|].
  - instantiate (1 := fun b => ext (p_buffer q) b). intros b E. exact (K_fine _ _ _ (K_niti m i (p_buffer q)) E).
  - instantiate (1 := fun b => sec 12 (with_buffer q b)). intros b E. pose proof (st_use _ _ _ _ (st_niti m i _ _ O2 (B_self _ _ Q)) E) as X. eapply sec_add; [exact Q|exact X].
  - intros b ((X1 & (x & ->)) & X3). split; [|exact X1]. split; [exact X3|]. cbn [with_buffer p_buffer]. destruct Q as (Q1 & _). rewrite loop_len_app by lia. rewrite app_length. lia.
Qed.
Lemma set_u16_at_length l i v r : set_u16_at l i v = Ok r -> length r = length l.
Proof.
  unfold set_u16_at, on_from, slice_from. destruct (Nat.leb_spec i (length l)) as [L|L]; [|discriminate]. cbn [bind]. intros H. apply bind_ok in H. destruct H as (t & E & R). injection R as <-.
  unfold set_u16 in E. apply bind_ok in E. destruct E as (u & E1 & E2). apply set_length in E1. apply set_length in E2. rewrite app_length, firstn_length, E2, E1, skipn_length. lia.
Qed.
Lemma nit_closed m t p : nlim t p -> st false (nit_close m p) (hlim (nit_table t) 240 (nit_network t) (nit_version t) (nit_fits t)).
Proof.
  intros (NS & (HS & HL)). eapply st_weak; [apply st_and; [exact (st_nit_close m p NS)|]|].
  - instantiate (1 := fun q => ext (head8 (nit_table t) 240 (nit_network t) (nit_version t) 0 0) (p_buffer q) /\ length (p_buffer q) = length (p_buffer p)).
    intros q E. unfold nit_close in E. apply bind_ok in E. destruct E as (n & _ & E). cbv zeta in E. apply bind_ok in E. destruct E as (l & _ & E). apply bind_ok in E. destruct E as (l' & _ & E).
    apply bind_ok in E. destruct E as (b & E & R). injection R as <-. cbn [with_buffer p_buffer]. destruct HS as (S8 & X). split.
    + refine (K_fine _ _ _ _ E). assert (L8 : length (head8 (nit_table t) 240 (nit_network t) (nit_version t) 0 0) = 8%nat) by reflexivity.
      set (h := head8 (nit_table t) 240 (nit_network t) (nit_version t) 0 0) in *. clearbody h. k1.
    + pose proof (set_u16_at_length _ _ _ _ E). assumption.
  - intros q (X1 & X2 & X3). split; [split; assumption|]. intros F. rewrite X3. exact (HL F).
Qed.
Lemma nit_closed_all m t l : Forall (nlim t) l -> st false (nit_close_all m l) (fun r => Forall (hlim (nit_table t) 240 (nit_network t) (nit_version t) (nit_fits t)) r /\ length r = length l).
Proof.
  induction l as [|p l IH]; intros H; cbn [nit_close_all]; [apply st_ok; split; [constructor|reflexivity]|]. inversion H; subst.
  eapply st_seq; [apply nit_closed; eassumption|]. intros q Q. eapply st_seq; [apply IH; assumption|]. intros r (R1 & R2). apply st_ok. split; [constructor; assumption|cbn [length]; lia].
Qed.
Lemma nit_made m t : nit_typed t -> st (dbg m && (loop_over (nit_descs t) || existsb (fun i => loop_over (niti_descs i)) (nit_items t))) (nit_sections m t)
  (fun l => Forall (hlim (nit_table t) 240 (nit_network t) (nit_version t) (nit_fits t)) l /\ l <> []).
Proof.
  intros T. unfold nit_sections. rewrite andb_orb_distrib_r. eapply st_bind; [exact (hnit_init m t true T)|]. intros p (P0 & P1 & P2). eapply st_then.
  - eapply (st_pack2 _ _ _ _ (fun i => descs_typed (niti_descs i) /\ (nit_fits t -> room (N.to_nat 1024) 18 (niti_descs i))) (fun i => loop_over (niti_descs i)) (nlim t)).
    + pose proof (hnit_init m t false T) as H. cbn [andb] in H. rewrite andb_false_r in H. exact H.
    + intros i q (O2 & O3) (Q0 & Q1 & Q2). apply nit_add; [exact O2|exact Q0|exact Q1|]. intros F. apply O3 in F. apply limit_1020. destruct F as (_ & F). lia.
    + intros i q (O2 & O3) (Q0 & Q1 & Q2) L. apply nit_add; [exact O2|exact Q0|exact Q1|].
      intros F. apply O3 in F. destruct F as (F & _). apply sum_honest in F. unfold nit_item_size in L. rewrite descs_said in L. lia.
    + destruct T as (_ & _ & _ & _ & T5). apply Forall_forall. intros i I. split; [destruct (proj1 (Forall_forall _ _) T5 i I) as (_ & _ & X2); exact X2|].
      intros (_ & F). exact (proj1 (Forall_forall _ _) F i I).
    + constructor.
    + split; [exact P0|]. split; [exact P1|]. intros ((_ & F) & _). apply limit_1020. lia.
  - intros l (L1 & L2). eapply st_weak; [apply nit_closed_all; exact L1|]. intros r (R1 & R2). split; [exact R1|]. destruct r; [destruct l; [congruence|discriminate]|discriminate].
Qed.
Lemma nit_framed m t pid cc dst r : nit_typed t -> pid < 8192 -> cc < 16 -> nit_demux m t pid cc dst = Ok r ->
  exists ss, sends (nit_demux m t pid cc dst) pid cc dst ss /\ ss <> [] /\ series ss (nit_table t) (nit_network t) (nit_version t) /\ (nit_fits t -> Forall (fun s => (length s <= N.to_nat 1024)%nat) ss).
Proof.
  intros T Hp Hc R. pose proof R as R'. unfold nit_demux in R'. apply bind_ok in R'. destruct R' as (l & E & _). unfold nit_demux.
  eapply series_lim; [assumption|assumption|apply T|apply T|exact E|]. exact (st_use _ _ _ _ (nit_made m t T) E).
Qed.

(** ** EIT *)
Definition ok {A} (e : res A) (Q : A -> Prop) : Prop := forall a, e = Ok a -> Q a.
Lemma ok_bind {A C} (e : res A) (k : A -> res C) Q R : ok e Q -> (forall a, Q a -> ok (k a) R) -> ok (bind e k) R.
Proof. intros H1 H2 r E. apply bind_ok in E. destruct E as (a & E & F). exact (H2 a (H1 a E) r F). Qed.
Lemma ok_ret {A} (a : A) (Q : A -> Prop) : Q a -> ok (Ok a) Q. Proof. intros H b E. injection E as <-. exact H. Qed.
Lemma ok_weak {A} (e : res A) (Q R : A -> Prop) : ok e Q -> (forall a, Q a -> R a) -> ok e R. Proof. intros H1 H2 a E. auto. Qed.
Lemma ok_st {A} s (e : res A) Q : st s e Q -> ok e Q. Proof. intros H a E. exact (st_use _ _ _ _ H E). Qed.
Lemma ok_any {A} (e : res A) : ok e (fun _ => True). Proof. intros a _. trivial. Qed.
Lemma ok_addw w m a b : w <> 0 -> ok (addw w m a b) (fun r => r < w). Proof. intros W. eapply ok_weak; [eapply ok_st, st_addw; exact W|]. intros r X. apply X. Qed.
(** identifier and version at their place *)
Definition EB (pnr version : N) (fits : Prop) (b : list N) : Prop :=
  (14 <= length b)%nat /\ bytes b /\ nth 3 b 0 = pnr / 256 /\ nth 4 b 0 = pnr mod 256 /\ nth 5 b 0 = 193 + 2 * (version mod 32) /\ (fits -> (length b <= N.to_nat 4092)%nat).
Definition EP (pnr version : N) (fits : Prop) (p : psi) : Prop := EB pnr version fits (p_buffer p) /\ p_size p = 0%nat.
Lemma nth_set_other {A} (l r : list A) i v k d : set l i v = Ok r -> k <> i -> nth k r d = nth k l d.
Proof.
  unfold set. destruct (Nat.ltb_spec i (length l)) as [L|L]; [|discriminate]. intros H N. injection H as <-. destruct (Nat.lt_total k i) as [H|[H|H]]; [|congruence|].
  - rewrite app_nth1 by (rewrite firstn_length; lia). rewrite <- (firstn_skipn i l) at 2. rewrite app_nth1 by (rewrite firstn_length; lia). reflexivity.
  - rewrite app_nth2 by (rewrite firstn_length; lia). rewrite firstn_length, Nat.min_l by lia. destruct (k - i)%nat eqn:E; [lia|]. cbn [nth].
    rewrite <- (firstn_skipn (S i) l) at 2. rewrite app_nth2 by (rewrite firstn_length; lia). rewrite firstn_length, Nat.min_l by lia. f_equal. lia.
Qed.
Lemma nth_ext k b r : ext b r -> (k < length b)%nat -> nth k r 0 = nth k b 0.
Proof. intros (x & ->) L. apply app_nth1. exact L. Qed.
Lemma EB_set pnr version fits b i v : EB pnr version fits b -> (i < 3 \/ 5 < i)%nat -> v < 256 -> ok (set b i v) (EB pnr version fits).
Proof.
  intros (E1 & E2 & E3 & E4 & E5 & E6) I V r E. pose proof (set_length _ _ _ _ E) as L. split; [lia|]. split.
  - unfold set in E. destruct (Nat.ltb_spec i (length b)) as [M|M]; [|discriminate]. injection E as <-. apply bytes_app. split; [apply bytes_firstn; exact E2|]. apply bytes_cons. split; [exact V|exact (bytes_skipn (S i) b E2)].
  - rewrite !(nth_set_other _ _ _ _ _ _ E) by lia. split; [exact E3|]. split; [exact E4|]. split; [exact E5|]. intros F. rewrite L. exact (E6 F).
Qed.
Lemma EB_item pnr version (fits : Prop) m i b : item_typed i -> EB pnr version fits b -> (fits -> (length b + event_written i <= N.to_nat 4092)%nat) -> ok (eit_item_assemble m i b) (EB pnr version fits).
Proof.
  intros O (E1 & E2 & E3 & E4 & E5 & E6) L r E. pose proof (K_fine _ _ _ (K_eiti m i b) E) as X.
  pose proof (st_use _ _ _ _ (st_eiti' m i _ b O (conj eq_refl E2)) E) as (Lr & Br). split; [lia|]. split; [exact Br|]. rewrite !(nth_ext _ _ _ X) by lia.
  split; [exact E3|]. split; [exact E4|]. split; [exact E5|]. intros F. rewrite Lr. exact (L F).
Qed.
Lemma EP_init m t fits : eit_table t < 2 ^ 8 -> eit_pnr t < 2 ^ 16 -> eit_version t < 2 ^ 8 ->
  ok (eit_init m t) (fun p => EP (eit_pnr t) (eit_version t) fits p /\ length (p_buffer p) = 14%nat).
Proof.
  intros T1 T2 T3 p E. pose proof (eit_init_head m t p E) as X. pose proof (st_use _ _ _ _ (st_eit_init m t T1) E) as ((L & Bp) & Z). split; [|exact L]. split; [|exact Z].
  split; [lia|]. split; [exact Bp|]. rewrite !(nth_ext _ _ _ X) by (unfold head8; cbn [length]; lia). unfold head8. cbn [nth].
  split; [apply ident_hi; exact T2|]. split; [reflexivity|]. split; [apply version_bits; exact T3|]. intros _. rewrite L. apply Nat.leb_le. vm_compute. reflexivity.
Qed.
(** a finished section *)
Definition done_s (pnr version : N) (fits : Prop) (q : psi) : Prop :=
  exists s, p_buffer q = s /\ p_size q = length s /\ framed s /\ (exists table num last, table < 256 /\ num < 256 /\ last < 256 /\ starts s table pnr version num last) /\ (fits -> (length s <= N.to_nat 4096)%nat).
Lemma EB_starts pnr version fits b : EB pnr version fits b -> exists b0 b1 b2 b6 b7 r, b = b0 :: b1 :: b2 :: pnr / 256 :: pnr mod 256 :: 193 + 2 * (version mod 32) :: b6 :: b7 :: r /\ b0 < 256 /\ b6 < 256 /\ b7 < 256.
Proof.
  intros (L & H & E3 & E4 & E5 & _). eight b L. cbn [nth] in *. subst. do 6 eexists. split; [reflexivity|].
  do 8 (apply bytes_cons in H; destruct H as (? & H)). auto.
Qed.
Lemma EP_done pnr version fits p : EP pnr version fits p -> ok (psi_finalize p) (done_s pnr version fits).
Proof.
  intros (E & Z) q R. destruct (EB_starts _ _ _ _ E) as (b0 & b1 & b2 & b6 & b7 & r & X & Y0 & Y6 & Y7).
  destruct (fin p _ _ _ _ X) as (s & x & y & c & F1 & F2 & F3 & F4); [split; [destruct E; lia|split; [apply E|exact Z]]|].
  rewrite F1 in R. injection R as <-. exists s. split; [reflexivity|]. split; [reflexivity|]. split; [exact F3|]. split.
  - exists b0, b6, b7. split; [exact Y0|]. split; [exact Y6|]. split; [exact Y7|]. exists x, y, (r ++ c). rewrite F2, (N.mod_small b6 256), (N.mod_small b7 256) by assumption. reflexivity.
  - intros F. rewrite F4. destruct E as (_ & _ & _ & _ & _ & E). specialize (E F). lia.
Qed.
Section Schedule.
Context (m : mode) (t : eit) (T1 : eit_table t < 2 ^ 8) (T2 : eit_pnr t < 2 ^ 16) (T3 : eit_version t < 2 ^ 8).
Definition ev (i : eit_item) : Prop := item_typed i /\ (eit_fits t -> room (N.to_nat 4096) 26 (eiti_descs i)).
Local Notation EPt := (EP (eit_pnr t) (eit_version t) (eit_fits t)).
Local Notation EBt := (EB (eit_pnr t) (eit_version t) (eit_fits t)).
Lemma e_blank table : table < 256 -> forall n p mid s, EPt p -> s < 256 -> ok (eit_blank m n table p mid s) (fun r => Forall EPt (fst (fst r)) /\ snd r < 256).
Proof.
  intros HT. induction n as [|n IH]; intros p mid s P S; cbn [eit_blank]; [apply ok_ret; cbn [fst snd]; split; [constructor|exact S]|].
  eapply ok_bind; [apply EB_set; [apply P|left; lia|exact HT]|]. intros b Hb. eapply ok_bind; [apply EB_set; [exact Hb|right; lia|exact S]|]. intros c Hc. cbv zeta.
  assert (Q : EPt (with_buffer p c)) by (split; [exact Hc|apply P]).
  eapply ok_bind; [apply ok_any|]. intros mid' _. eapply ok_bind; [apply ok_addw; discriminate|]. intros s' S'. eapply ok_bind; [apply (IH _ _ _ Q S')|].
  intros [[l mm] ss] (L1 & L2). cbn [fst snd] in *. apply ok_ret. cbn [fst snd]. split; [constructor; assumption|exact L2].
Qed.
Lemma e_open table section i : table < 256 -> section < 256 -> ev i -> ok (eit_open m t table section i) EPt.
Proof.
  intros HT HS (O & F). unfold eit_open. eapply ok_bind; [apply (EP_init m t (eit_fits t)); assumption|]. intros p (P & L). destruct P as (P & Z).
  intros q E. apply bind_ok in E. destruct E as (b & E1 & E). apply bind_ok in E. destruct E as (c & E2 & E). apply bind_ok in E. destruct E as (d & E3 & E). injection E as <-.
  pose proof (EB_set _ _ _ _ _ _ P (or_introl (le_n_S 0 2 (Nat.le_0_l 2))) HT _ E1) as Hb. pose proof (EB_set _ _ _ _ _ _ Hb (or_intror (Nat.le_refl 6)) HS _ E2) as Hc.
  apply set_length in E1. apply set_length in E2. split; [|exact Z]. refine (EB_item _ _ _ m i c O Hc _ d E3). intros X. apply F in X. destruct X as (_ & X). unfold event_written. lia.
Qed.
Lemma e_fill : forall items next table section done cur, Forall ev items -> table < 256 -> section < 256 -> Forall EPt done -> EPt cur ->
  ok (eit_fill m t items next table section done cur) (fun l => Forall EPt l).
Proof.
  assert (SN : forall done cur, Forall EPt done -> EPt cur -> Forall EPt (done ++ [cur])) by (intros; apply Forall_app; auto).
  induction items as [|i r IH]; intros next table section done cur H HT HS HD HC; cbn [eit_fill]; [apply ok_ret; auto|]. inversion H as [|? ? O1 O2]; subst.
  destruct (next <=? eiti_start i).
  - eapply ok_bind; [apply ok_any|]. intros next' _. cbv zeta.
    eapply ok_bind with (Q := fun p => fst p < 256 /\ snd p < 256).
    + destruct (section / 8 * 8 =? 248).
      * eapply ok_bind; [apply (ok_addw U8); discriminate|]. intros t' X. apply ok_ret. split; [reflexivity|exact X].
      * eapply ok_bind; [apply (ok_addw U8); discriminate|]. intros s' X. apply ok_ret. split; [exact X|exact HT].
    + intros [s' t'] (S1 & S2). cbn [fst snd] in *. eapply ok_bind; [apply e_open; eassumption|]. intros p P. apply IH; auto.
  - destruct (Nat.leb_spec EIT_SECTION_SIZE (eit_item_size i + length (p_buffer cur))) as [L|L].
    + eapply ok_bind; [apply (ok_addw U8); discriminate|]. intros s' X. eapply ok_bind; [apply e_open; eassumption|]. intros p P. apply IH; auto.
    + destruct HC as (C & Z). eapply ok_bind; [apply EB_item; [apply O1|exact C|]|].
      * intros F. apply O1 in F. destruct F as (F & _). apply sum_honest in F. rewrite said_item in L. unfold event_said in L. unfold event_written. unfold EIT_SECTION_SIZE in L. lia.
      * intros b Hb. apply IH; auto. split; assumption.
Qed.
Lemma e_close last_table : last_table < 256 -> forall rl table last acc, Forall EPt rl -> last < 256 -> Forall (done_s (eit_pnr t) (eit_version t) (eit_fits t)) acc ->
  ok (eit_close last_table rl table last acc) (Forall (done_s (eit_pnr t) (eit_version t) (eit_fits t))).
Proof.
  intros HL. induction rl as [|p r IH]; intros table last acc H L A; cbn [eit_close]; [apply ok_ret; exact A|].
  inversion H as [|? ? (HP & HZ) HR]; subst. assert (PB : B (length (p_buffer p)) (p_buffer p)) by (split; [reflexivity|apply HP]). pose proof (proj1 HP) as LP.
  eapply ok_bind; [eapply ok_st, st_get; [exact PB|lia]|]. intros b0 B0. eapply ok_bind; [eapply ok_st, st_get; [exact PB|lia]|]. intros b6 B6. cbv beta in B0, B6. cbv zeta.
  assert (L' : (if negb (b0 =? table) then b6 else last) < 256) by (destruct (negb (b0 =? table)); assumption).
  set (last' := if negb (b0 =? table) then b6 else last) in *. set (table' := if negb (b0 =? table) then b0 else table). clearbody last' table'.
  eapply ok_bind; [apply EB_set; [exact HP|right; lia|exact L']|]. intros b Hb.
  eapply ok_bind; [eapply ok_st, st_get; [split; [reflexivity|apply Hb]|destruct Hb; lia]|]. intros x X. cbv beta in X.
  eapply ok_bind; [apply EB_set; [exact Hb|right; lia|exact X]|]. intros c Hc. eapply ok_bind; [apply EB_set; [exact Hc|right; lia|exact HL]|]. intros d Hd.
  eapply ok_bind; [apply EP_done; split; [exact Hd|exact HZ]|]. intros q Q. apply IH; [exact HR|exact L'|constructor; assumption].
Qed.
Lemma e_schedule first items : Forall ev (first :: items) -> ok (eit_schedule m t first items) (Forall (done_s (eit_pnr t) (eit_version t) (eit_fits t))).
Proof.
  intros H. unfold eit_schedule. cbv zeta. change (2 ^ 8) with 256 in T1. rewrite land_F0 by exact T1. set (base := eit_table t / 16 * 16). assert (HB : base < 256) by (unfold base; dlia).
  eapply ok_bind; [apply ok_any|]. intros service _. eapply ok_bind; [apply (ok_addw U8); discriminate|]. intros lt LT.
  eapply ok_bind; [apply (EP_init m (mkEit base (eit_version t) (eit_pnr t) (eit_tsid t) (eit_onid t) []) (eit_fits t)); assumption|]. cbn [eit_pnr eit_version]. intros p (P & _).
  eapply ok_bind; [apply (e_blank base HB); [exact P|reflexivity]|]. intros [[bl mid] sc]. cbn [fst snd]. intros (B1 & B2).
  eapply ok_bind; [apply ok_any|]. intros next _. eapply ok_bind; [apply (EP_init m t (eit_fits t)); assumption|]. intros p2 (P2 & _).
  eapply ok_bind; [apply EB_set; [apply P2|right; lia|exact B2]|]. intros b Hb.
  eapply ok_bind; [apply e_fill; [exact H|exact HB|exact B2|exact B1|split; [exact Hb|apply P2]]|]. intros l L. apply e_close; [exact LT|apply Forall_rev; exact L|reflexivity|constructor].
Qed.
End Schedule.

Definition sendable (q : psi) : Prop := p_size q = length (p_buffer q) /\ bytes (p_buffer q) /\ p_buffer q <> [].
Lemma send_all m pid : pid < 8192 -> forall l cc dst, cc < 16 -> Forall sendable l -> sends (eit_send m pid l cc dst) pid cc dst (map p_buffer l).
Proof.
  intros Hp. induction l as [|q l IH]; intros cc dst Hc H; unfold sends; cbn [eit_send map].
  - cbn [stream concat]. rewrite app_nil_r, next_nil by assumption. reflexivity.
  - inversion H as [|? ? (Q1 & Q2 & Q3) H']; subst. destruct (send_one m q pid cc dst (p_buffer q)) as (r & E & Er); try assumption; try reflexivity.
    rewrite E. cbn [bind]. rewrite Er. pose proof (IH ((cc + N.of_nat (length (section_packets pid cc (p_buffer q)))) mod 16) (dst ++ concat (section_packets pid cc (p_buffer q))) ltac:(apply N.mod_lt; discriminate) H') as S1.
    unfold sends in S1. rewrite S1. rewrite stream_cons, concat_app, app_assoc. rewrite (stream_next pid cc) by assumption. reflexivity.
Qed.
Lemma done_send pnr version fits q : done_s pnr version fits q -> sendable q.
Proof. intros (s & <- & Z & (F1 & F2 & _) & _). split; [exact Z|]. split; [exact F1|]. destruct (p_buffer q); [cbn in F2; lia|discriminate]. Qed.
(** present/following: an event is a section *)
Lemma set6 table sb ident version r b k : ext (head8 table sb ident version 0 0) b -> set b 6 k = Ok r -> exists x, r = table :: sb :: 0 :: cast U8 (N.shiftr ident 8) :: cast U8 ident :: N.lor (N.lor 192 (N.land (shlw U8 version 1) 62)) 1 :: k :: 0 :: x.
Proof. intros (x & ->) E. unfold head8 in E. cbn [app] in E. injection E as <-. exists x. reflexivity. Qed.
Lemma e_pf m t last : eit_table t < 2 ^ 8 -> eit_pnr t < 2 ^ 16 -> eit_version t < 2 ^ 8 -> last < 256 -> forall items n, Forall item_typed items ->
  ok (eit_pf m t last n items) (fun l => length l = length items /\ Forall sendable l /\ forall k q, nth_error l k = Some q ->
    framed (p_buffer q) /\ starts (p_buffer q) (eit_table t) (eit_pnr t) (eit_version t) (N.of_nat (n + k)) last /\ forall i, nth_error items k = Some i -> length (p_buffer q) = (18 + event_written i)%nat).
Proof.
  intros T1 T2 T3 HL. induction items as [|i r IH]; intros n H; cbn [eit_pf]; [apply ok_ret; split; [reflexivity|]; split; [constructor|]; intros [|k]; discriminate|].
  inversion H as [|? ? O1 O2]; subst. intros l E. apply bind_ok in E. destruct E as (p & E0 & E). apply bind_ok in E. destruct E as (b6 & E6 & E). apply bind_ok in E. destruct E as (b7 & E7 & E).
  apply bind_ok in E. destruct E as (b12 & E12 & E). apply bind_ok in E. destruct E as (b13 & E13 & E). apply bind_ok in E. destruct E as (bi & EI & E). apply bind_ok in E. destruct E as (q & EQ & E).
  apply bind_ok in E. destruct E as (l' & EL & E). injection E as <-.
  pose proof (eit_init_head m t p E0) as X. pose proof (st_use _ _ _ _ (st_eit_init m t T1) E0) as (BP & Z).
  destruct (set6 _ _ _ _ _ _ _ X E6) as (x & XB). rewrite ident_hi in XB by exact T2. rewrite version_bits in XB by exact T3.
  pose proof (set_length _ _ _ _ E6) as L6. pose proof (set_length _ _ _ _ E7) as L7. pose proof (set_length _ _ _ _ E12) as L12. pose proof (set_length _ _ _ _ E13) as L13.
  assert (B6 : bytes b6) by (apply (st_use _ _ _ _ (st_set _ _ 6 _ BP ltac:(lia) (cast8 _)) E6)).
  assert (HB6 : B 14 b6) by (split; [rewrite L6; apply BP|exact B6]).
  pose proof (st_use _ _ _ _ (st_set _ _ 7 _ HB6 ltac:(lia) HL) E7) as HB7. pose proof (st_use _ _ _ _ (st_set _ _ 12 _ HB7 ltac:(lia) HL) E12) as HB12.
  assert (T1' : eit_table t < 256) by exact T1. pose proof (st_use _ _ _ _ (st_set _ _ 13 _ HB12 ltac:(lia) T1') E13) as HB13.
  rewrite XB in E7. injection E7 as E7. set (h := [eit_table t; 240; 0; eit_pnr t / 256; eit_pnr t mod 256; 193 + 2 * (eit_version t mod 32); cast U8 (N.of_nat n); last]).
  assert (EX7 : ext h b7) by (exists x; symmetry; exact E7). assert (Lh : length h = 8%nat) by reflexivity.
  assert (EX12 : ext h b12) by (apply (K_fine _ _ _ (K_set h b7 12 last EX7 ltac:(lia)) E12)).
  assert (EX13 : ext h b13) by (apply (K_fine _ _ _ (K_set h b12 13 (eit_table t) EX12 ltac:(lia)) E13)).
  pose proof (ext_trans _ _ _ EX13 (K_fine _ _ _ (K_eiti m i b13) EI)) as (y & EB').
  pose proof (st_use _ _ _ _ (st_eiti' m i _ _ O1 HB13) EI) as (LI & BI).
  unfold h in EB'. cbn [app] in EB'. assert (S8 : sec 8 (with_buffer p bi)) by (split; [|split]; cbn [with_buffer p_buffer p_size]; [lia|exact BI|exact Z]).
  destruct (fin (with_buffer p bi) _ _ _ _ EB' S8) as (s & u & v & c & F1 & F2 & F3 & F4). rewrite F1 in EQ. injection EQ as <-.
  destruct (IH (S n) O2 l' EL) as (I1 & I2 & I3). split; [cbn [length]; lia|]. split.
  - constructor; [|exact I2]. split; [reflexivity|]. cbn [p_buffer]. split; [apply F3|]. rewrite F2. discriminate.
  - intros [|k] q Hq; cbn [nth_error] in Hq.
    + injection Hq as <-. cbn [p_buffer]. rewrite Nat.add_0_r. split; [exact F3|]. split.
      * exists u, v, (y ++ c). rewrite F2. rewrite (N.mod_small last 256) by exact HL. reflexivity.
      * intros j Hj. injection Hj as <-. rewrite F4. cbn [with_buffer p_buffer]. rewrite LI. lia.
    + replace (n + S k)%nat with (S n + k)%nat by lia. exact (I3 k q Hq).
Qed.
Lemma eit_pf_framed m t pid cc dst r : eit_typed t -> eit_table t = 0x4E \/ eit_table t = 0x4F -> pid < 8192 -> cc < 16 -> eit_demux m t pid cc dst = Ok r ->
  exists ss, sends (eit_demux m t pid cc dst) pid cc dst ss /\ length ss = length (eit_items t) /\ series ss (eit_table t) (eit_pnr t) (eit_version t) /\
    (eit_fits t -> Forall (fun s => (length s <= N.to_nat 4096)%nat) ss).
Proof.
  intros (T1 & T2 & T3 & T4 & T5 & T6) HT Hp Hc R. unfold eit_demux in *. apply bind_ok in R. destruct R as (l & E & _). rewrite E. cbn [bind].
  assert (TI : Forall item_typed (eit_items t)).
  { eapply Forall_impl; [|exact T6]. intros i (_ & X1 & X2 & _ & _ & X3). split; [|split]; assumption. }
  assert (G : length l = length (eit_items t) /\ Forall sendable l /\ forall k q, nth_error l k = Some q ->
    framed (p_buffer q) /\ starts (p_buffer q) (eit_table t) (eit_pnr t) (eit_version t) (N.of_nat k) (N.of_nat (length l - 1)) /\ forall i, nth_error (eit_items t) k = Some i -> length (p_buffer q) = (18 + event_written i)%nat).
  { unfold eit_sections in E. destruct (eit_items t) as [|first items] eqn:EI.
    - injection E as <-. split; [reflexivity|]. split; [constructor|]. intros [|k]; discriminate.
    - replace ((eit_table t =? 78) || (eit_table t =? 79)) with true in E by (destruct HT as [-> | ->]; reflexivity).
      destruct (e_pf m t _ T1 T3 T2 (cast8 _) (first :: items) 0 TI l E) as (I1 & I2 & I3). split; [exact I1|]. split; [exact I2|]. intros k q Hq. destruct (I3 k q Hq) as (J1 & J2 & J3).
      split; [exact J1|]. split; [|exact J3]. rewrite I1. unfold starts in *. destruct J2 as (x & y & z & J2). exists x, y, z. rewrite J2. unfold cast, U8. rewrite N.mod_mod by discriminate. reflexivity. }
  clear E. destruct G as (G1 & G2 & G3). exists (map p_buffer l). split; [apply send_all; assumption|]. split; [rewrite map_length; exact G1|].
  assert (GM : forall k s, nth_error (map p_buffer l) k = Some s -> exists q, nth_error l k = Some q /\ p_buffer q = s).
  { intros k s Hs. rewrite nth_error_map in Hs. destruct (nth_error l k) as [q|]; [|discriminate]. injection Hs as <-. eauto. }
  split; [split|].
  - apply Forall_forall. intros s Is. apply In_nth_error in Is. destruct Is as (k & Hk). destruct (GM k s Hk) as (q & Hq & <-). apply (G3 k q Hq).
  - intros k s Hk. destruct (GM k s Hk) as (q & Hq & <-). rewrite map_length. apply (G3 k q Hq).
  - intros F. apply Forall_forall. intros s Is. apply In_nth_error in Is. destruct Is as (k & Hk). destruct (GM k s Hk) as (q & Hq & <-). destruct (G3 k q Hq) as (_ & _ & G).
    destruct (nth_error (eit_items t) k) as [i|] eqn:EI.
    + rewrite (G i eq_refl). apply nth_error_In in EI. destruct (proj1 (Forall_forall _ _) F i EI) as (_ & X). unfold event_written. lia.
    + apply nth_error_None in EI. assert (Y : nth_error l k <> None) by congruence. apply nth_error_Some in Y. lia.
Qed.
Lemma eit_schedule_framed m t pid cc dst r : eit_typed t -> eit_table t <> 0x4E -> eit_table t <> 0x4F -> pid < 8192 -> cc < 16 -> eit_demux m t pid cc dst = Ok r ->
  exists ss, sends (eit_demux m t pid cc dst) pid cc dst ss /\
    Forall (fun s => framed s /\ exists table num last, table < 256 /\ num < 256 /\ last < 256 /\ starts s table (eit_pnr t) (eit_version t) num last) ss /\
    (eit_fits t -> Forall (fun s => (length s <= N.to_nat 4096)%nat) ss).
Proof.
  intros (T1 & T2 & T3 & T4 & T5 & T6) H1 H2 Hp Hc R. unfold eit_demux in *. apply bind_ok in R. destruct R as (l & E & _). rewrite E. cbn [bind].
  assert (TI : Forall (ev t) (eit_items t)).
  { apply Forall_forall. intros i I. split.
    - destruct (proj1 (Forall_forall _ _) T6 i I) as (_ & X1 & X2 & _ & _ & X3). split; [|split]; assumption.
    - intros F. exact (proj1 (Forall_forall _ _) F i I). }
  assert (G : Forall (done_s (eit_pnr t) (eit_version t) (eit_fits t)) l).
  { unfold eit_sections in E. destruct (eit_items t) as [|first items] eqn:EI.
    - injection E as <-. constructor.
    - replace ((eit_table t =? 78) || (eit_table t =? 79)) with false in E by (apply N.eqb_neq in H1; apply N.eqb_neq in H2; rewrite H1, H2; reflexivity).
      exact (e_schedule m t T1 T3 T2 first items TI l E). }
  clear E. exists (map p_buffer l). split; [apply send_all; [assumption|assumption|eapply Forall_impl; [|exact G]; intros q; apply done_send]|]. split.
  - apply Forall_forall. intros s Is. apply in_map_iff in Is. destruct Is as (q & <- & Iq). destruct (proj1 (Forall_forall _ _) G q Iq) as (s & <- & _ & F & S & _). split; [exact F|exact S].
  - intros F. apply Forall_forall. intros s Is. apply in_map_iff in Is. destruct Is as (q & <- & Iq). destruct (proj1 (Forall_forall _ _) G q Iq) as (s & <- & _ & _ & _ & L). exact (L F).
Qed.

(** ** TDT, TOT *)
Lemma tdt_framed m t pid cc dst : t < 2 ^ 64 -> pid < 8192 -> cc < 16 ->
  exists a b c d e, bytes [a; b; c; d; e] /\ sends (tdt_demux m t pid cc dst) pid cc dst [[0x70; 0x70; 5; a; b; c; d; e]].
Proof.
  intros T Hp Hc. unfold tdt_demux.
  assert (S : st false (tdt_section m t) (fun p => sect 8 p /\ ext [0x70; 0x70; 5] (p_buffer p))).
  { apply st_and.
    - unfold tdt_section. eapply st_seq; [apply st_psi_new; [reflexivity|lia]|]. intros p (P1 & P2). do 2 step. cbv zeta.
      match goal with H : B 3 ?x |- context[resize ?x 8 0] => pose proof (B_resize 3 x 5 H) as H8; rewrite (B_at _ _ H) in H8 end. change (3 + 5)%nat with 8%nat in H8.
      eapply st_seq; [apply st_mjd; exact T|]. intros ? _. step. eapply st_seq; [apply st_time6, cast32|]. intros ? _. step.
      apply st_ok. split; [cbn [with_buffer p_buffer]; assumption|exact P2].
    - intros p E. unfold tdt_section in E. replace (psi_new m 112 3 0) with (psi_new Debug 112 3 0) in E by (destruct m; reflexivity).
      apply bind_ok in E. destruct E as (q & EQ & E). vm_compute in EQ. injection EQ as <-. cbn [p_buffer] in E. apply bind_ok in E. destruct E as (b & EQ & E). vm_compute in EQ. injection EQ as <-.
      apply bind_ok in E. destruct E as (b & EQ & E). vm_compute in EQ. injection EQ as <-. cbv zeta in E. change (resize [112; 112; 5] 8 0) with ([112; 112; 5] ++ repeat 0 5) in E.
      apply bind_ok in E. destruct E as (d & _ & E). apply bind_ok in E. destruct E as (b & E1 & E). apply bind_ok in E. destruct E as (s & _ & E). apply bind_ok in E. destruct E as (c & E2 & E). injection E as <-. cbn [with_buffer p_buffer].
      set (h := [112; 112; 5]) in *. assert (Lh : length h = 3%nat) by reflexivity. assert (X0 : ext h (h ++ repeat 0 5)) by (eexists; reflexivity). clearbody h.
      assert (X1 : ext h b) by (refine (K_fine _ _ _ _ E1); k1). refine (K_fine _ _ _ _ E2). k1. }
  destruct S as (p & E & ((L & Bp) & Z) & (x & X)). rewrite E. cbn [bind]. cbv zeta. rewrite X in *. cbn [app length] in L, Bp |- *.
  destruct x as [|a [|b [|c [|d [|e [|? ?]]]]]]; cbn [length] in L; try (exfalso; lia). exists a, b, c, d, e. do 3 (apply bytes_cons in Bp; destruct Bp as (? & Bp)). split; [exact Bp|].
  pose proof (send_all m pid Hp [mkPsi [112; 112; 5; a; b; c; d; e] 8 pid cc] cc dst Hc) as S1. unfold sends in *. cbn [eit_send map p_buffer] in S1.
  rewrite <- S1; [reflexivity|]. constructor; [|constructor]. split; [reflexivity|]. cbn [p_buffer]. split; [|discriminate]. do 3 (apply bytes_cons; split; [assumption|]). exact Bp.
Qed.
Lemma tot_framed m t pid cc dst r : tot_typed t -> pid < 8192 -> cc < 16 -> tot_demux m t pid cc dst = Ok r ->
  exists s, sends (tot_demux m t pid cc dst) pid cc dst [s] /\ framed s /\ nth 0 s 0 = 0x73 /\ length s = (14 + sum written (tot_descs t))%nat.
Proof.
  intros (T1 & T2) Hp Hc R. unfold tot_demux in *. apply bind_ok in R. destruct R as (p & E & _). rewrite E. cbn [bind].
  assert (S : sect (10 + sum written (tot_descs t)) p /\ ext [0x73] (p_buffer p)).
  { split.
    - refine (st_use (dbg m && loop_over (tot_descs t)) _ _ _ _ E). unfold tot_section. eapply st_seq; [apply st_psi_new; [reflexivity|lia]|]. intros q (P1 & P2). step. cbv zeta.
      match goal with H : B 10 ?x |- context[resize ?x 10 0] => pose proof (B_resize 10 x 0 H) as H8; rewrite (B_at _ _ H) in H8 end. change (10 + 0)%nat with 10%nat in H8.
      eapply st_seq; [apply st_mjd; exact T1|]. intros ? _. step. eapply st_seq; [apply st_time6, cast32|]. intros ? _. step. loop T2. step.
      apply st_ok. split; [cbn [with_buffer p_buffer]; assumption|exact P2].
    - unfold tot_section in E. replace (psi_new m 115 10 0) with (psi_new Debug 115 10 0) in E by (destruct m; reflexivity).
      apply bind_ok in E. destruct E as (q & EQ & E). vm_compute in EQ. injection EQ as <-. cbn [p_buffer] in E. apply bind_ok in E. destruct E as (b & EQ & E). vm_compute in EQ. injection EQ as <-.
      cbv zeta in E. match type of E with context[resize ?l 10 0] => change (resize l 10 0) with l in E; assert (X0 : ext [115] l) by (eexists; reflexivity); set (l0 := l) in * end. clearbody l0.
      apply bind_ok in E. destruct E as (d & _ & E). apply bind_ok in E. destruct E as (b & E1 & E). apply bind_ok in E. destruct E as (s & _ & E). apply bind_ok in E. destruct E as (c & E2 & E).
      apply bind_ok in E. destruct E as ((b3, n) & E3 & E). apply bind_ok in E. destruct E as (b4 & E4 & E). injection E as <-. cbn [with_buffer p_buffer].
      set (h := [115]) in *. assert (Lh : length h = 1%nat) by reflexivity. clearbody h.
      assert (X1 : ext h b) by (refine (K_fine _ _ _ _ E1); k1). assert (X2 : ext h c) by (refine (K_fine _ _ _ _ E2); k1).
      assert (X3 : ext h b3). { unfold descs_assemble in E3. cbv zeta in E3. apply bind_ok in E3. destruct E3 as (b5 & E5 & E3). injection E3 as <- _. exact (K_fine _ _ _ (K_descs m (tot_descs t) h c X2) E5). }
      refine (K_fine _ _ _ _ E4). k1. }
  destruct S as (((L & Bp) & Z) & (x & X)). cbn [app] in X. destruct x as [|b1 [|b2 x]]; try (rewrite X in L; cbn [length] in L; exfalso; lia).
  destruct (fin p _ _ _ _ X) as (s & u & v & c & F1 & F2 & F3 & F4); [split; [lia|split; assumption]|]. rewrite F1. cbn [bind]. cbv zeta. cbn [p_buffer].
  exists s. split; [|split; [exact F3|split; [rewrite F2; reflexivity|lia]]].
  pose proof (send_all m pid Hp [mkPsi s (length s) pid cc] cc dst Hc) as S1. unfold sends in *. cbn [eit_send map p_buffer] in S1.
  rewrite <- S1; [reflexivity|]. constructor; [|constructor]. split; [reflexivity|]. cbn [p_buffer]. split; [apply F3|]. rewrite F2. discriminate.
Qed.

(** ** sizes *)
Lemma section_length_12 s : bytes s -> (section_length s <= N.to_nat 4098)%nat.
Proof. intros _. unfold section_length. pose proof (field_lt s 12 12). change (2 ^ N.of_nat 12) with 4096 in *. lia. Qed.
Lemma tot_over m t pid cc dst r : tot_typed t -> pid < 8192 -> cc < 16 -> (N.to_nat 4098 < 14 + sum written (tot_descs t))%nat -> tot_demux m t pid cc dst = Ok r ->
  exists s, sends (tot_demux m t pid cc dst) pid cc dst [s] /\ (section_length s < length s)%nat.
Proof.
  intros T Hp Hc L R. destruct (tot_framed m t pid cc dst r T Hp Hc R) as (s & S & F & _ & E). exists s. split; [exact S|]. pose proof (section_length_12 s (proj1 F)). lia.
Qed.
Lemma sdt_lengths m t l pid cc dst : sdt_typed t -> pid < 8192 -> cc < 16 -> sdt_sections m t = Ok l ->
  exists ss, sends (sdt_demux m t pid cc dst) pid cc dst ss /\ map (@length N) ss = map (fun p => length (p_buffer p) + 4)%nat l.
Proof.
  intros T Hp Hc E. destruct (st_use _ _ _ _ (sdt_made m t T) E) as (F & N). unfold sdt_demux. rewrite E. cbn [bind].
  destruct (table_series m l pid cc dst (sdt_table t) 240 (sdt_tsid t) (sdt_version t) Hp Hc ltac:(apply T) ltac:(apply T) N) as (ss & S1 & S2 & _ & S4); [eapply Forall_impl; [|exact F]; intros p X; apply X|].
  exists ss. split; [exact S1|]. clear S1 E F N. revert ss S2 S4. induction l as [|p l IH]; intros [|s ss] S2 S4; cbn [length] in S2; try discriminate; [reflexivity|]. cbn [map].
  rewrite (S4 0%nat p s eq_refl eq_refl). f_equal. apply IH; [lia|]. intros i q u A C. exact (S4 (S i) q u A C).
Qed.
Lemma framed_ok s : framed s -> (length s <= N.to_nat 4098)%nat -> section_ok s.
Proof. intros (F1 & F2 & F3 & F4) L. split; [exact F1|]. split; [exact (F4 L)|]. split; [lia|exact F3]. Qed.
Lemma tot_release t pid cc dst : tot_typed t -> bytes dst -> cc < 256 -> exists r, tot_demux Release t pid cc dst = Ok r.
Proof. intros T D C. destruct (st_tot Release t pid cc dst T D C) as (r & E & _). eauto. Qed.
