(** Proofs: reception of whole tables. *)
From Verif Require Import Prelude Layout Facts Facts2 S_ts S_crc S_utils S_psi M_bytes M_ts M_crc M_utils M_psi M_drive M_recv M_desc S_desc
  M_tables S_tables P_bytes P_crc P_utils P_psi P_mux P_mux2 P_sect P_mux3 P_desc P_desc2 P_desc3 W_psi W_desc P_tab P_tab2 P_tab3 P_tab4.

(** ** the parsers do nothing without a checked section *)
Lemma get_0 (l : list N) : l <> [] -> exists b, get l 0 = Ok b.
Proof. destruct l as [|b l]; [congruence|]. intros _. exists b. reflexivity. Qed.
Ltac is_quiet f c := intros t p C B; unfold f, c; destruct (get_0 _ B) as [b Eb]; rewrite Eb; cbn [bind];
  match goal with |- context [negb (?k <=? ?n)%nat] => destruct (k <=? n)%nat end; cbn [negb bind]; [|reflexivity];
  match goal with |- context [if negb ?x then Ok false else _] => destruct x end; cbn [negb bind]; [rewrite C|]; reflexivity.
Lemma pat_quiet m : quiet (pat_parse m). Proof. is_quiet pat_parse pat_check. Qed.
Lemma pmt_quiet m : quiet (pmt_parse m). Proof. is_quiet pmt_parse pmt_check. Qed.
Lemma nit_quiet m : quiet (nit_parse m). Proof. is_quiet nit_parse nit_check. Qed.
Lemma sdt_quiet m : quiet (sdt_parse m). Proof. is_quiet sdt_parse sdt_check. Qed.
Lemma eit_quiet m : quiet (eit_parse m). Proof. is_quiet eit_parse eit_check. Qed.
Lemma tot_quiet m : quiet (tot_parse m). Proof. is_quiet tot_parse tot_check. Qed.
Lemma pat_blind m : blind (pat_parse m). Proof. intros t s n i c i' c'. reflexivity. Qed.
Lemma pmt_blind m : blind (pmt_parse m). Proof. intros t s n i c i' c'. reflexivity. Qed.
Lemma nit_blind m : blind (nit_parse m). Proof. intros t s n i c i' c'. reflexivity. Qed.
Lemma sdt_blind m : blind (sdt_parse m). Proof. intros t s n i c i' c'. reflexivity. Qed.
Lemma eit_blind m : blind (eit_parse m). Proof. intros t s n i c i' c'. reflexivity. Qed.
Lemma tot_blind m : blind (tot_parse m). Proof. intros t s n i c i' c'. reflexivity. Qed.

Lemma has_alone s : section_ok s -> has (mkPsi s (length s) 0 0) s.
Proof. intros H. split; [assumption|]. split; [reflexivity|]. exists []. cbn [p_buffer]. rewrite app_nil_r. split; [reflexivity|constructor]. Qed.

Lemma parse_groups {T A} (parse : T -> psi -> res T) (f : nat -> list A -> list N) (comb : T -> list A -> T) :
  (forall u g h, comb (comb u g) h = comb u (g ++ h)) ->
  forall gs n u g0, Forall section_ok (numbered f n gs) ->
  (forall i g u, In g gs -> (n <= i)%nat -> section_ok (f i g) -> parse u (mkPsi (f i g) (length (f i g)) 0 0) = Ok (comb u g)) ->
  parse_sections parse (comb u g0) (numbered f n gs) = Ok (comb u (g0 ++ concat gs)).
Proof.
  intros A1. induction gs as [|g gs IH]; intros n u g0 F H.
  - cbn [numbered parse_sections concat]. rewrite app_nil_r. reflexivity.
  - cbn [numbered] in *. inversion F; subst. cbn [parse_sections concat]. rewrite H; [|left; reflexivity|lia|assumption].
    cbn [bind]. rewrite A1. rewrite IH; [rewrite app_assoc; reflexivity|assumption|].
    intros i g' u' Hi Hn Ho. apply H; [right; assumption|lia|assumption].
Qed.

Lemma forall_in {A} (P : A -> Prop) g (gs : list (list A)) : Forall (Forall P) gs -> In g gs -> Forall P g.
Proof. intros F I. rewrite Forall_forall in F. apply F, I. Qed.

Ltac slen := rewrite section_len, !app_length, !layout_length by reflexivity; tw; lia.

(** ** SDT *)
Lemma sdt_len t last i g : (15 <= length (sdt_section t last i g))%nat.
Proof. unfold sdt_section. slen. Qed.
Lemma sdt_tables t last i g : sdt_ok t -> field (sdt_section t last i g) 0 8 = sdt_table t.
Proof. intros (H1 & H2 & H3 & _). unfold sdt_section. apply (proj1 (section_head _ _ _ _ _ _ _ H1 H3 H2)). Qed.

Lemma sdt_recover m t last g0 gs old : sdt_ok t -> Forall (item_exact sdti_descs) (sdt_items t) -> sdt_table t = 0x42 \/ sdt_table t = 0x46 ->
  sdt_items t = g0 ++ concat gs -> let ss := numbered (sdt_section t last) 0 (g0 :: gs) in
  Forall section_ok ss -> parse_sections (sdt_parse m) old ss = Ok (sdt_add old t).
Proof.
  intros H X T E ss K. subst ss. pose proof H as (H1 & H2 & H3 & H4 & H5).
  destruct (in_groups _ _ _ _ E H5) as [G0 G1]. destruct (in_groups _ _ _ _ E X) as [X0 X1].
  set (comb := fun u g => sdt_add u (mkSdt (sdt_table t) (sdt_version t) (sdt_tsid t) (sdt_onid t) g)).
  assert (P : forall i g u, Forall sdt_item_ok g -> Forall (item_exact sdti_descs) g -> section_ok (sdt_section t last i g) ->
    sdt_parse m u (mkPsi (sdt_section t last i g) (length (sdt_section t last i g)) 0 0) = Ok (comb u g)).
  { intros i g u Hg Xg Ho. apply (sdt_parse_section m u _ (sdt_section t last i g)).
    - apply has_alone; assumption.
    - rewrite sdt_tables; assumption.
    - apply sdt_len.
    - apply sdt_back; assumption. }
  cbn [numbered] in *. inversion K; subst. cbn [parse_sections]. rewrite P by assumption. cbn [bind].
  rewrite (parse_groups _ _ comb); [|intros; unfold comb, sdt_add; cbn [sdt_items sdt_table sdt_version sdt_tsid sdt_onid]; rewrite app_assoc; reflexivity|assumption|].
  - unfold comb. rewrite <- E. destruct t; reflexivity.
  - intros i g u Hi Hn Ho. apply P; [apply (forall_in _ _ _ G1 Hi)|apply (forall_in _ _ _ X1 Hi)|assumption].
Qed.

(** ** NIT *)
Lemma nit_len t last i g : (16 <= length (nit_section t last i g))%nat.
Proof. unfold nit_section. cbv zeta. slen. Qed.
Lemma nit_tables t last i g : nit_ok t -> field (nit_section t last i g) 0 8 = nit_table t.
Proof. intros (H1 & H2 & H3 & _). unfold nit_section. cbv zeta. apply (proj1 (section_head _ _ _ _ _ _ _ H1 H3 H2)). Qed.
Lemma nit_recover m t last g0 gs old : nit_ok t -> loop_exact (nit_descs t) -> Forall (item_exact niti_descs) (nit_items t) ->
  nit_table t = 0x40 \/ nit_table t = 0x41 ->
  nit_items t = g0 ++ concat gs -> let ss := numbered (nit_section t last) 0 (g0 :: gs) in
  Forall section_ok ss -> parse_sections (nit_parse m) old ss = Ok (nit_add old t).
Proof.
  intros H D X T E ss K. subst ss. pose proof H as (H1 & H2 & H3 & H4 & H5).
  destruct (in_groups _ _ _ _ E H5) as [G0 G1]. destruct (in_groups _ _ _ _ E X) as [X0 X1].
  set (comb := fun u g => nit_add u (mkNit (nit_table t) (nit_version t) (nit_network t) [] g)).
  assert (P : forall i g u, Forall nit_item_ok g -> Forall (item_exact niti_descs) g -> section_ok (nit_section t last i g) ->
    nit_parse m u (mkPsi (nit_section t last i g) (length (nit_section t last i g)) 0 0) =
    Ok (nit_add u (mkNit (nit_table t) (nit_version t) (nit_network t) (if (i =? 0)%nat then nit_descs t else []) g))).
  { intros i g u Hg Xg Ho. apply (nit_parse_section m u _ (nit_section t last i g)).
    - apply has_alone; assumption.
    - rewrite nit_tables; assumption.
    - apply nit_len.
    - apply nit_back; assumption. }
  cbn [numbered] in *. inversion K; subst. cbn [parse_sections]. rewrite P by assumption. cbn [bind Nat.eqb].
  assert (C0 : nit_add old (mkNit (nit_table t) (nit_version t) (nit_network t) (nit_descs t) g0) =
               comb (nit_add old (mkNit (nit_table t) (nit_version t) (nit_network t) (nit_descs t) [])) g0).
  { unfold comb, nit_add. cbn [nit_items nit_table nit_version nit_network nit_descs]. rewrite !app_nil_r. reflexivity. }
  rewrite C0. rewrite (parse_groups _ _ comb); [|intros; unfold comb, nit_add; cbn [nit_items nit_table nit_version nit_network nit_descs]; rewrite !app_nil_r, app_assoc; reflexivity|assumption|].
  - unfold comb. rewrite <- E. unfold nit_add. cbn [nit_items nit_table nit_version nit_network nit_descs]. rewrite !app_nil_r. reflexivity.
  - intros i g u Hi Hn Ho. rewrite P; [|apply (forall_in _ _ _ G1 Hi)|apply (forall_in _ _ _ X1 Hi)|assumption].
    destruct (Nat.eqb_spec i 0); [lia|]. reflexivity.
Qed.

(** ** PMT *)
Lemma pmt_len t last i g : (16 <= length (pmt_section t last i g))%nat.
Proof. unfold pmt_section. cbv zeta. slen. Qed.
Lemma pmt_tables t last i g : pmt_ok t -> field (pmt_section t last i g) 0 8 = 2.
Proof. intros (H1 & H2 & H3 & _). unfold pmt_section. cbv zeta. apply (proj1 (section_head 2 _ _ _ _ _ _ eq_refl H2 H1)). Qed.
Lemma pmt_recover m t last g0 gs old : pmt_ok t -> pmt_descs t = [] -> Forall (item_exact pmti_descs) (pmt_items t) ->
  pmt_items t = g0 ++ concat gs -> let ss := numbered (pmt_section t last) 0 (g0 :: gs) in
  Forall section_ok ss -> parse_sections (pmt_parse m) old ss = Ok (pmt_add old t).
Proof.
  intros H D X E ss K. subst ss. pose proof H as (H1 & H2 & H3 & H4 & H5).
  destruct (in_groups _ _ _ _ E H5) as [G0 G1]. destruct (in_groups _ _ _ _ E X) as [X0 X1].
  set (comb := fun u g => pmt_add u (mkPmt (pmt_version t) (pmt_pnr t) (pmt_pcr t) [] g)).
  assert (P : forall i g u, Forall pmt_item_ok g -> Forall (item_exact pmti_descs) g -> section_ok (pmt_section t last i g) ->
    pmt_parse m u (mkPsi (pmt_section t last i g) (length (pmt_section t last i g)) 0 0) = Ok (comb u g)).
  { intros i g u Hg Xg Ho. apply (pmt_parse_section m u _ (pmt_section t last i g)).
    - apply has_alone; assumption.
    - apply pmt_tables; assumption.
    - apply pmt_len.
    - apply pmt_back; auto. }
  cbn [numbered] in *. inversion K; subst. cbn [parse_sections]. rewrite P by assumption. cbn [bind].
  rewrite (parse_groups _ _ comb); [|intros; unfold comb, pmt_add; cbn [pmt_items pmt_version pmt_pnr pmt_pcr pmt_descs]; rewrite !app_nil_r, app_assoc; reflexivity|assumption|].
  - unfold comb. rewrite <- E. unfold pmt_add. rewrite D. destruct t; reflexivity.
  - intros i g u Hi Hn Ho. apply P; [apply (forall_in _ _ _ G1 Hi)|apply (forall_in _ _ _ X1 Hi)|assumption].
Qed.

(** ** PAT *)
Lemma pat_fill_spec : forall items k b, (length b + 4 * k = SECTION_SIZE)%nat -> Forall pat_item_ok items ->
  pat_fill items b = Ok (b ++ flat_map pat_entry (firstn k items)).
Proof.
  induction items as [|i items IH]; intros k b L F.
  - rewrite firstn_nil. cbn [flat_map pat_fill]. rewrite app_nil_r. reflexivity.
  - inversion F; subst. cbn [pat_fill]. change (pat_item_size i) with 4%nat. rewrite <- L. destruct k as [|k].
    + destruct (Nat.ltb_spec (length b + 4 * 0) (length b + 4)); [|lia]. cbn [firstn flat_map]. rewrite app_nil_r. reflexivity.
    + destruct (Nat.ltb_spec (length b + 4 * S k) (length b + 4)); [lia|].
      rewrite (pat_item_spec i b) by assumption. cbn [bind firstn flat_map].
      rewrite (IH k); [rewrite app_assoc; reflexivity| |assumption]. rewrite app_length.
      replace (length (pat_entry i)) with 4%nat by (symmetry; apply layout_length; reflexivity). lia.
Qed.
Lemma pat_sections_spec m t : pat_ok t ->
  pat_sections m t = Ok [sect_psi 0 0 (pat_tsid t) (pat_version t) (flat_map pat_entry (firstn 253 (pat_items t)))].
Proof.
  intros (H1 & H2 & H3). unfold pat_sections. new 8%nat. hw. rewrite (pat_fill_spec _ 253); [|reflexivity|assumption].
  cbn [bind]. reflexivity.
Qed.
Lemma pat_demux_spec m t pid cc dst : pat_ok t -> pid < 8192 -> cc < 16 ->
  let s := pat_section t (firstn 253 (pat_items t)) in
  pat_demux m t pid cc dst = Ok (next_cc pid cc [s], dst ++ concat (stream pid cc [s])) /\ section_ok s /\ (length s <= N.to_nat 1024)%nat.
Proof.
  intros H Hp Hc s. pose proof H as (H1 & H2 & H3). unfold pat_demux. rewrite pat_sections_spec by assumption. cbn [bind].
  set (g := firstn 253 (pat_items t)) in *.
  assert (Fg : Forall pat_item_ok g). { subst g. rewrite <- (firstn_skipn 253 (pat_items t)) in H3. apply Forall_app in H3. tauto. }
  assert (Lg : (length (flat_map pat_entry g) <= 4 * 253)%nat).
  { rewrite (flat_map_len _ _ 4) by (apply Forall_forall; intros; apply layout_length; reflexivity). subst g. rewrite firstn_length. lia. }
  destruct (groups_demux m 0 0 (pat_tsid t) (pat_version t) (flat_map pat_entry) (flat_map pat_entry) g [] pid cc dst) as [D K]; try assumption; try lia.
  { split; [|lia]. apply bytes_flat. apply Forall_forall. intros; apply layout_bytes. }
  { constructor. }
  cbn [map numbered Nat.eqb length] in D, K. inversion K; subst. split; [exact D|]. split; [assumption|].
  unfold s, pat_section. rewrite section_len. lia.
Qed.
Lemma pat_recover m t g old : pat_ok t -> Forall pat_item_ok g -> section_ok (pat_section t g) ->
  parse_sections (pat_parse m) old [pat_section t g] = Ok (pat_add old (mkPat (pat_version t) (pat_tsid t) g)).
Proof.
  intros (H1 & H2 & H3) F K. cbn [parse_sections]. rewrite (pat_parse_section m old _ (pat_section t g)); [|apply has_alone; assumption| |].
  - cbn [bind]. do 2 f_equal. symmetry. apply pat_back; assumption.
  - unfold pat_section. apply (proj1 (section_head 0 _ _ _ _ _ _ eq_refl H2 H1)).
  - unfold pat_section. rewrite section_len. lia.
Qed.
