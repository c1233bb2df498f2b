(** Proofs: sections of any kind on one PID, and a table followed in a byte stream. *)
From Verif Require Import Prelude Layout Facts Facts2 S_ts S_crc S_utils S_psi M_bytes M_ts M_crc M_utils M_psi M_drive M_recv M_desc S_desc
  M_tables S_tables P_bytes P_crc P_utils P_psi P_mux P_mux2 P_sect P_mux3 P_desc P_desc2 P_desc3 W_psi W_desc P_tab P_tab2 P_tab5 P_tab6 P_tab7 W_tables
  M_reader S_reader P_reader M_system S_system.

(** ** one section *)
Lemma framed_len s : framed s -> (3 <= length s)%nat.
Proof. intros [_ ->]. unfold section_length. lia. Qed.
Lemma holds_framed p s st : framed s -> holds p (s ++ st) -> p_buffer p = s /\ p_size p = length s.
Proof.
  intros F [H1 _]. pose proof (framed_len s F) as H3. destruct F as [Hb Hl].
  assert (E : section_length (s ++ st) = length s) by (rewrite section_length_app by lia; lia).
  rewrite E in H1. destruct H1 as [Hs Hf]; [rewrite app_length; lia|].
  rewrite firstn_app, Nat.sub_diag, firstn_all, firstn_O, app_nil_r in Hf. auto.
Qed.

Lemma continues_firstn n : forall cc ks, continues cc ks -> continues cc (firstn n ks).
Proof.
  induction n as [|n IH]; intros cc ks H; [exact I|]. destruct ks as [|k ks]; [exact I|]. cbn [firstn continues] in *.
  destruct H as [H1 H2]. split; [assumption|]. destruct (k_haspl k); [destruct H2 as (H2 & H3 & H4 & H5); auto|auto].
Qed.
Lemma carried_app a b : carried (a ++ b) = carried a ++ carried b.
Proof. unfold carried. rewrite filter_app, map_app, concat_app. reflexivity. Qed.

(** parse does nothing while [s] is incomplete *)
Definition waits {T} (parse : T -> psi -> res T) (s : list N) : Prop :=
  forall t p d r, s = d ++ r -> r <> [] -> holds p d -> parse t p = Ok t.

Lemma receive_carried {T} m (parse : T -> psi -> res T) p t l s : framed s -> carries l s -> (length l = 1%nat \/ waits parse s) ->
  exists cc, cc < 16 /\ let q := mkPsi s (length s) (p_pid p) cc in
    receive m parse p t (map encode l) = (u <- parse t q ;; Ok (q, u)).
Proof.
  intros F (k & ks & c & st & -> & Hk & Hpl & Hpu & Hpay & Hc & H3 & Hall & Hinc) W.
  assert (X : forall n, exists p', mux_all m p (map encode (k :: firstn n ks)) = Ok p' /\ holds p' (c ++ carried (firstn n ks)) /\
     p_cc p' = last_cc (k_cc k) (firstn n ks) /\ p_pid p' = p_pid p).
  { intros n. destruct (mux_legal m p [] k (firstn n ks) [] c) as (p' & E & Hh & Hc' & Hp & _); try assumption.
    - constructor.
    - cbn. lia.
    - left. reflexivity.
    - apply continues_firstn. assumption.
    - destruct (Nat.le_gt_cases (length ks) n) as [L|L]; [rewrite firstn_all2 by assumption; assumption|].
      rewrite <- (firstn_skipn n ks) in H3. rewrite filter_app in H3. destruct (filter k_haspl (firstn n ks)); [exact I|exact H3].
    - exists p'. auto. }
  assert (Y : forall n, (n <= length ks)%nat ->
     exists q, mux_all m p (map encode (k :: firstn n ks)) = Ok q /\
       receive m parse p t (map encode (k :: firstn n ks)) =
         if (n =? length ks)%nat then (u <- parse t q ;; Ok (q, u)) else Ok (q, t)).
  { induction n as [|n IH]; intros Ln.
    - destruct (X 0%nat) as (q & E & Hh & _). exists q. split; [assumption|]. cbn [firstn map mux_all receive] in *.
      apply bind_inv in E as (q1 & -> & E). injection E as ->. cbn [bind].
      destruct (Nat.eqb_spec 0 (length ks)) as [L|L]; [reflexivity|].
      destruct W as [W|W]; [cbn [length] in W; lia|].
      pose proof (Hinc 0%nat ltac:(lia)) as L0. cbn [firstn carried filter map concat] in L0, Hh. rewrite app_nil_r in L0, Hh.
      rewrite (W t q c (skipn (length c) s)); [reflexivity| |apply skipn_ne; assumption|exact Hh].
      transitivity (firstn (length c) s ++ skipn (length c) s); [symmetry; apply firstn_skipn|]. f_equal.
      transitivity (firstn (length c) (s ++ st)); [rewrite firstn_app; replace (length c - length s)%nat with 0%nat by lia; rewrite firstn_O, app_nil_r; reflexivity|].
      rewrite <- Hall. rewrite firstn_app, Nat.sub_diag, firstn_all, firstn_O, app_nil_r. reflexivity.
    - destruct (IH ltac:(lia)) as (q0 & E0 & R0). destruct (Nat.eqb_spec n (length ks)) as [L|L]; [lia|].
      destruct (X (S n)) as (q & E & Hh & _). exists q. split; [assumption|].
      rewrite (snoc_firstn ks n k) in E |- * by lia. rewrite app_comm_cons, map_app in E |- *. rewrite receive_app, R0.
      rewrite mux_all_app, E0 in E. cbn [bind mux_all map receive] in *.
      apply bind_inv in E as (q1 & -> & E). injection E as ->. cbn [bind].
      destruct (Nat.eqb_spec (S n) (length ks)) as [L'|L']; [reflexivity|].
      destruct W as [W|W]; [cbn [length] in W; lia|].
      pose proof (Hinc (S n) ltac:(lia)) as L0. set (d := c ++ carried (firstn (S n) ks)) in *.
      rewrite (W t q d (skipn (length d) s)); [reflexivity| |apply skipn_ne; assumption|exact Hh].
      transitivity (firstn (length d) s ++ skipn (length d) s); [symmetry; apply firstn_skipn|]. f_equal.
      transitivity (firstn (length d) (s ++ st)); [rewrite firstn_app; replace (length d - length s)%nat with 0%nat by lia; rewrite firstn_O, app_nil_r; reflexivity|].
      rewrite <- Hall. rewrite <- (firstn_skipn (S n) ks) at 1. rewrite carried_app, app_assoc. fold d.
      rewrite firstn_app, Nat.sub_diag, firstn_all, firstn_O, app_nil_r. reflexivity. }
  destruct (X (length ks)) as (q & E & Hh & Hcc & Hp). destruct (Y (length ks) ltac:(lia)) as (q' & E' & R).
  rewrite firstn_all in *. rewrite Nat.eqb_refl in R. assert (q' = q) by congruence. subst q'.
  rewrite Hall in Hh. destruct (holds_framed q s st F Hh) as [B1 B2]. exists (p_cc q). split.
  - rewrite Hcc. clear - Hk Hc. assert (G : forall ks cc, cc < 16 -> continues cc ks -> last_cc cc ks < 16).
    { induction ks0 as [|x ks0 IH]; intros cc H K; [exact H|]. unfold last_cc in *. cbn [filter]. cbn [continues] in K. destruct K as [K1 K2].
      destruct (k_haspl x); [|apply IH; assumption]. destruct K2 as (_ & _ & K2 & K3). cbn [map]. rewrite last_cons. apply IH; [apply K1|assumption]. }
    apply G; [apply Hk|assumption].
  - cbv zeta. rewrite R. destruct q as [b z i cc]. cbn in *. subst. reflexivity.
Qed.

(** ** many sections *)
Lemma receive_sections {T} m (parse : T -> psi -> res T) : blind parse -> forall ls ss, Forall2 carries ls ss -> Forall framed ss ->
  Forall2 (fun l s => length l = 1%nat \/ waits parse s) ls ss ->
  forall p t, match parse_sections parse t ss with
              | Ok u => exists q, receive m parse p t (map encode (concat ls)) = Ok (q, u)
              | Panic => receive m parse p t (map encode (concat ls)) = Panic
              | Hang => receive m parse p t (map encode (concat ls)) = Hang end.
Proof.
  intros B ls ss H. induction H as [|l s ls ss H1 H IH]; intros F W p t; [exists p; reflexivity|].
  inversion F as [|? ? F1 F2]; subst. inversion W as [|? ? ? ? W1 W2]; subst. cbn [concat parse_sections]. rewrite map_app, receive_app.
  destruct (receive_carried m parse p t l s F1 H1 W1) as (cc & Hcc & E). cbv zeta in E. rewrite E. rewrite (B t s (length s) 0 0 (p_pid p) cc).
  destruct (parse t (mkPsi s (length s) (p_pid p) cc)) as [u| |]; cbn [bind]; [|reflexivity|reflexivity].
  apply (IH F2 W2).
Qed.

(** ** the sections a table looks at *)
Lemma consistent_got s i cc : framed s -> consistent (mkPsi s (length s) i cc).
Proof. intros F. pose proof (framed_len s F). destruct F as [H1 H2]. split; [exact H1|]. right. cbn. auto. Qed.
Lemma holds_consistent p d : bytes d -> holds p d -> consistent p.
Proof. exact (holds_InvB p d). Qed.
Lemma waits_pass {T} (parse : T -> psi -> res T) ids min s : (1 <= min)%nat -> (forall t p, consistent p -> ~ accepted ids min p -> parse t p = Ok t) ->
  framed s -> waits parse s.
Proof.
  intros Hm P F t p d r E Hr Hh. pose proof (framed_len s F) as L3. destruct F as [Hb Hl]. subst s. apply bytes_app in Hb as [Hb _].
  apply P; [exact (holds_consistent p d Hb Hh)|]. intros ((A1 & A2) & _). rewrite app_length in *.
  assert (Hrl : (0 < length r)%nat) by (destruct r; [congruence|cbn; lia]).
  destruct (Nat.le_gt_cases 3 (length d)) as [H|H].
  - destruct (proj1 Hh H) as [Hs Hf]. rewrite section_length_app in Hl by assumption. rewrite Hf, firstn_length in A2. lia.
  - destruct (proj2 Hh H) as [Hs _]. lia.
Qed.

Lemma accepted_got (f : N -> bool) (ids : N -> Prop) min s i cc : (forall b, b < 256 -> f b = true <-> ids b) ->
  accepted ids min (mkPsi s (length s) i cc) <-> (min <=? length s)%nat && f (field s 0 8) && (crc_spec s =? 0) = true.
Proof.
  intros Hf. unfold accepted. cbn [p_size p_buffer]. rewrite firstn_all, !andb_true_iff, Nat.leb_le, N.eqb_eq, Hf by apply (field_lt s 0 8). intuition lia.
Qed.

(** a list of sections: what is heard is added in order *)
Section Heard.
Context {T : Type} (parse : T -> psi -> res T) (f : list N -> bool) (rd : list N -> T -> Prop) (add : T -> T -> T).
Hypothesis pass : forall t s, framed s -> f s = false -> parse t (mkPsi s (length s) 0 0) = Ok t.
Hypothesis reads : forall t s u, framed s -> f s = true -> rd s u -> parse t (mkPsi s (length s) 0 0) = Ok (add t u).
Lemma each_heard ss : Forall framed ss -> forall ts t, Forall2 rd (filter f ss) ts -> parse_sections parse t ss = Ok (fold_left add ts t).
Proof.
  induction 1 as [|s ss F _ IH]; intros ts t R.
  - inversion R; subst. reflexivity.
  - cbn [filter] in R. cbn [parse_sections]. destruct (f s) eqn:E.
    + inversion R as [|? u ? us R1 R2]; subst. rewrite (reads t s u F E R1). cbn [bind fold_left]. apply IH. assumption.
    + rewrite (pass t s F E). cbn [bind]. apply IH. assumption.
Qed.
(** with an exact description of the outcome *)
Hypothesis exact : forall t s, framed s -> f s = true -> outcome_is (parse t (mkPsi s (length s) 0 0)) (rd s) (add t).
Lemma each_abort ss : Forall framed ss -> Exists (fun s => forall u, ~ rd s u) (filter f ss) -> forall t, parse_sections parse t ss = Panic.
Proof.
  induction 1 as [|s ss F _ IH]; intros E t; [inversion E|]. cbn [filter] in E. cbn [parse_sections]. destruct (f s) eqn:Ef.
  - destruct (exact t s F Ef) as [O1 O2]. destruct (parse t (mkPsi s (length s) 0 0)) as [u| |] eqn:Ep; cbn [bind].
    + inversion E as [? ? E1|? ? E1]; subst; [|apply IH; assumption]. destruct (proj1 (O1 u) eq_refl) as (v & Hv & _). destruct (E1 v Hv).
    + reflexivity.
    + exfalso. assert (forall u, ~ rd s u). { intros u Hu. discriminate (proj2 (O1 (add t u)) ltac:(eauto)). }
      discriminate (proj2 O2 H).
  - rewrite (pass t s F Ef). cbn [bind]. apply IH. assumption.
Qed.
(** so the result is exactly described *)
Lemma each_exact ss : Forall framed ss -> forall t u, parse_sections parse t ss = Ok u -> exists ts, Forall2 rd (filter f ss) ts /\ u = fold_left add ts t.
Proof.
  induction 1 as [|s ss F _ IH]; intros t u E; cbn [parse_sections filter] in *.
  - injection E as <-. exists []. split; [constructor|reflexivity].
  - destruct (f s) eqn:Ef.
    + apply bind_inv in E as (v & E1 & E2). apply (proj1 (exact t s F Ef)) in E1 as (w & Hw & ->).
      destruct (IH _ _ E2) as (ts & R & ->). exists (w :: ts). split; [constructor; assumption|reflexivity].
    + rewrite (pass t s F Ef) in E. cbn [bind] in E. apply IH. assumption.
Qed.
End Heard.

(** ** the tables *)
Lemma id_pat_ids b : b < 256 -> id_pat b = true <-> pat_ids b. Proof. intros _. unfold id_pat, pat_ids. apply N.eqb_eq. Qed.
Lemma id_pmt_ids b : b < 256 -> id_pmt b = true <-> pmt_ids b. Proof. intros _. unfold id_pmt, pmt_ids. apply N.eqb_eq. Qed.
Lemma id_tot_ids b : b < 256 -> id_tot b = true <-> tot_ids b. Proof. intros _. unfold id_tot, tot_ids. apply N.eqb_eq. Qed.
Lemma id_nit_ids b : b < 256 -> id_nit b = true <-> nit_ids b.
Proof. intros _. unfold id_nit, nit_ids. rewrite orb_true_iff, !N.eqb_eq. tauto. Qed.
Lemma id_sdt_ids b : b < 256 -> id_sdt b = true <-> sdt_ids b.
Proof. intros _. unfold id_sdt, sdt_ids. rewrite orb_true_iff, !N.eqb_eq. tauto. Qed.
Lemma id_eit_ids b : b < 256 -> id_eit b = true <-> eit_ids b.
Proof. intros _. unfold id_eit, eit_ids. rewrite andb_true_iff, !N.leb_le. tauto. Qed.

Lemma framed_has s i cc : framed s -> (8 <= length s)%nat -> crc_spec s = 0 -> has (mkPsi s (length s) i cc) s.
Proof. intros [H1 H2] H3 H4. split; [repeat split; assumption|]. split; [reflexivity|]. exists []. cbn. rewrite app_nil_r. split; [reflexivity|constructor]. Qed.
Definition heard1 (f : N -> bool) (min : nat) (s : list N) : bool := (min <=? length s)%nat && f (field s 0 8) && (crc_spec s =? 0).
Lemma heard1_inv f ids min s : (8 <= min)%nat -> (forall b, b < 256 -> f b = true <-> ids b) -> framed s -> heard1 f min s = true ->
  has (mkPsi s (length s) 0 0) s /\ ids (field s 0 8) /\ (min <= length s)%nat.
Proof.
  intros Hm Hf F H. unfold heard1 in H. rewrite !andb_true_iff, Nat.leb_le, N.eqb_eq, Hf in H by apply (field_lt s 0 8). destruct H as [[H1 H2] H3].
  split; [|split; assumption]. apply framed_has; [assumption|lia|assumption].
Qed.
Lemma heard1_pass {T} (parse : T -> psi -> res T) f ids min : (forall b, b < 256 -> f b = true <-> ids b) ->
  (forall t p, consistent p -> ~ accepted ids min p -> parse t p = Ok t) ->
  forall t s, framed s -> heard1 f min s = false -> parse t (mkPsi s (length s) 0 0) = Ok t.
Proof.
  intros Hf P t s F E. apply P; [apply consistent_got; assumption|]. rewrite (accepted_got f ids min s 0 0 Hf). unfold heard1 in E. congruence.
Qed.
Lemma all_wait {T} (parse : T -> psi -> res T) ids min : (1 <= min)%nat ->
  (forall t p, consistent p -> ~ accepted ids min p -> parse t p = Ok t) ->
  forall (ls : list (list packet)) ss, Forall2 carries ls ss -> Forall framed ss -> Forall2 (fun l s => length l = 1%nat \/ waits parse s) ls ss.
Proof.
  intros Hm P ls ss H. induction H; intros F; constructor; inversion F; subst; auto. right. eapply waits_pass; eassumption.
Qed.
Definition follows_debug {T} (parse : mode -> T -> psi -> res T) (rd : list N -> T -> Prop) (add : T -> T -> T) (p : psi) (old : T)
  (l : list (list N)) (h : list (list N)) : Prop :=
  (forall q u, receive Debug (parse Debug) p old l = Ok (q, u) -> exists ts, Forall2 rd h ts /\ u = fold_left add ts old) /\
  (Exists (fun s => forall u, ~ rd s u) h -> receive Debug (parse Debug) p old l = Panic).
Lemma follows_intro {T} (parse : mode -> T -> psi -> res T) f rd add p old ls ss : blind (parse Debug) -> Forall2 carries ls ss -> Forall framed ss ->
  Forall2 (fun l s => length l = 1%nat \/ waits (parse Debug) s) ls ss ->
  (forall t s, framed s -> f s = false -> parse Debug t (mkPsi s (length s) 0 0) = Ok t) ->
  (forall t s, framed s -> f s = true -> outcome_is (parse Debug t (mkPsi s (length s) 0 0)) (rd s) (add t)) ->
  follows_debug parse rd add p old (map encode (concat ls)) (filter f ss).
Proof.
  intros B C F W P X. pose proof (receive_sections Debug (parse Debug) B ls ss C F W p old) as R. split.
  - intros q u E. destruct (parse_sections (parse Debug) old ss) as [v| |] eqn:Ev; [|congruence|congruence].
    destruct R as [q' R]. assert (v = u) by congruence. subst v. exact (each_exact (parse Debug) f rd add P X ss F old u Ev).
  - intros E. rewrite (each_abort (parse Debug) f rd add P X ss F E old) in R. assumption.
Qed.

Lemma pat_mixed m p old ls ss ts : Forall2 carries ls ss -> Forall framed ss -> Forall2 pat_reads (heard id_pat 12 ss) ts ->
  exists q, receive m (pat_parse m) p old (map encode (concat ls)) = Ok (q, fold_left pat_add ts old).
Proof.
  intros C F R. pose proof (receive_sections m (pat_parse m) (pat_blind m) ls ss C F) as H.
  specialize (H (all_wait _ pat_ids 12 ltac:(lia) (pat_pass m) ls ss C F) p old).
  rewrite (each_heard (pat_parse m) (heard1 id_pat 12) pat_reads pat_add) with (ts := ts) in H; [exact H| | |assumption|exact R].
  - apply (heard1_pass _ _ pat_ids); [exact id_pat_ids|exact (pat_pass m)].
  - intros t s u Fs E Ru. destruct (heard1_inv id_pat pat_ids 12 s ltac:(lia) id_pat_ids Fs E) as (H1 & H2 & H3).
    rewrite Ru. apply (pat_parse_section m t _ s H1 H2 H3).
Qed.

Lemma pmt_mixed m p old ls ss ts : Forall2 carries ls ss -> Forall framed ss -> Forall2 pmt_seen (heard id_pmt 16 ss) ts ->
  exists q, receive m (pmt_parse m) p old (map encode (concat ls)) = Ok (q, fold_left pmt_add ts old).
Proof.
  intros C F R. pose proof (receive_sections m (pmt_parse m) (pmt_blind m) ls ss C F) as H.
  specialize (H (all_wait _ pmt_ids 16 ltac:(lia) (pmt_pass m) ls ss C F) p old).
  rewrite (each_heard (pmt_parse m) (heard1 id_pmt 16) pmt_seen pmt_add) with (ts := ts) in H; [exact H| | |assumption|exact R].
  - apply (heard1_pass _ _ pmt_ids); [exact id_pmt_ids|exact (pmt_pass m)].
  - intros t s u Fs E Ru. destruct (heard1_inv id_pmt pmt_ids 16 s ltac:(lia) id_pmt_ids Fs E) as (H1 & H2 & H3).
    exact (pmt_parse_section m t _ s u H1 H2 H3 Ru).
Qed.
Lemma pmt_mixed_debug p old ls ss : Forall2 carries ls ss -> Forall framed ss ->
  follows_debug pmt_parse pmt_seen pmt_add p old (map encode (concat ls)) (heard id_pmt 16 ss).
Proof.
  intros C F. apply (follows_intro pmt_parse (heard1 id_pmt 16) pmt_seen pmt_add p old ls ss (pmt_blind Debug) C F).
  - exact (all_wait _ pmt_ids 16 ltac:(lia) (pmt_pass Debug) ls ss C F).
  - apply (heard1_pass _ _ pmt_ids); [exact id_pmt_ids|exact (pmt_pass Debug)].
  - intros t s Fs E. destruct (heard1_inv id_pmt pmt_ids 16 s ltac:(lia) id_pmt_ids Fs E) as (H1 & H2 & H3).
    exact (pmt_debug t _ s H1 H2 H3).
Qed.

Lemma nit_mixed m p old ls ss ts : Forall2 carries ls ss -> Forall framed ss -> Forall2 nit_reads (heard id_nit 16 ss) ts ->
  exists q, receive m (nit_parse m) p old (map encode (concat ls)) = Ok (q, fold_left nit_add ts old).
Proof.
  intros C F R. pose proof (receive_sections m (nit_parse m) (nit_blind m) ls ss C F) as H.
  specialize (H (all_wait _ nit_ids 16 ltac:(lia) (nit_pass m) ls ss C F) p old).
  rewrite (each_heard (nit_parse m) (heard1 id_nit 16) nit_reads nit_add) with (ts := ts) in H; [exact H| | |assumption|exact R].
  - apply (heard1_pass _ _ nit_ids); [exact id_nit_ids|exact (nit_pass m)].
  - intros t s u Fs E Ru. destruct (heard1_inv id_nit nit_ids 16 s ltac:(lia) id_nit_ids Fs E) as (H1 & H2 & H3).
    exact (nit_parse_section m t _ s u H1 H2 H3 Ru).
Qed.
Lemma nit_mixed_debug p old ls ss : Forall2 carries ls ss -> Forall framed ss ->
  follows_debug nit_parse nit_reads nit_add p old (map encode (concat ls)) (heard id_nit 16 ss).
Proof.
  intros C F. apply (follows_intro nit_parse (heard1 id_nit 16) nit_reads nit_add p old ls ss (nit_blind Debug) C F).
  - exact (all_wait _ nit_ids 16 ltac:(lia) (nit_pass Debug) ls ss C F).
  - apply (heard1_pass _ _ nit_ids); [exact id_nit_ids|exact (nit_pass Debug)].
  - intros t s Fs E. destruct (heard1_inv id_nit nit_ids 16 s ltac:(lia) id_nit_ids Fs E) as (H1 & H2 & H3).
    exact (nit_debug t _ s H1 H2 H3).
Qed.

Lemma sdt_mixed m p old ls ss ts : Forall2 carries ls ss -> Forall framed ss -> Forall2 sdt_reads (heard id_sdt 15 ss) ts ->
  exists q, receive m (sdt_parse m) p old (map encode (concat ls)) = Ok (q, fold_left sdt_add ts old).
Proof.
  intros C F R. pose proof (receive_sections m (sdt_parse m) (sdt_blind m) ls ss C F) as H.
  specialize (H (all_wait _ sdt_ids 15 ltac:(lia) (sdt_pass m) ls ss C F) p old).
  rewrite (each_heard (sdt_parse m) (heard1 id_sdt 15) sdt_reads sdt_add) with (ts := ts) in H; [exact H| | |assumption|exact R].
  - apply (heard1_pass _ _ sdt_ids); [exact id_sdt_ids|exact (sdt_pass m)].
  - intros t s u Fs E Ru. destruct (heard1_inv id_sdt sdt_ids 15 s ltac:(lia) id_sdt_ids Fs E) as (H1 & H2 & H3).
    exact (sdt_parse_section m t _ s u H1 H2 H3 Ru).
Qed.
Lemma sdt_mixed_debug p old ls ss : Forall2 carries ls ss -> Forall framed ss ->
  follows_debug sdt_parse sdt_reads sdt_add p old (map encode (concat ls)) (heard id_sdt 15 ss).
Proof.
  intros C F. apply (follows_intro sdt_parse (heard1 id_sdt 15) sdt_reads sdt_add p old ls ss (sdt_blind Debug) C F).
  - exact (all_wait _ sdt_ids 15 ltac:(lia) (sdt_pass Debug) ls ss C F).
  - apply (heard1_pass _ _ sdt_ids); [exact id_sdt_ids|exact (sdt_pass Debug)].
  - intros t s Fs E. destruct (heard1_inv id_sdt sdt_ids 15 s ltac:(lia) id_sdt_ids Fs E) as (H1 & H2 & H3).
    exact (sdt_debug t _ s H1 H2 H3).
Qed.

Lemma eit_mixed m p old ls ss ts : Forall2 carries ls ss -> Forall framed ss -> Forall2 eit_reads (heard id_eit 18 ss) ts ->
  exists q, receive m (eit_parse m) p old (map encode (concat ls)) = Ok (q, fold_left eit_add ts old).
Proof.
  intros C F R. pose proof (receive_sections m (eit_parse m) (eit_blind m) ls ss C F) as H.
  specialize (H (all_wait _ eit_ids 18 ltac:(lia) (eit_pass m) ls ss C F) p old).
  rewrite (each_heard (eit_parse m) (heard1 id_eit 18) eit_reads eit_add) with (ts := ts) in H; [exact H| | |assumption|exact R].
  - apply (heard1_pass _ _ eit_ids); [exact id_eit_ids|exact (eit_pass m)].
  - intros t s u Fs E Ru. destruct (heard1_inv id_eit eit_ids 18 s ltac:(lia) id_eit_ids Fs E) as (H1 & H2 & H3).
    exact (eit_parse_section m t _ s u H1 H2 H3 Ru).
Qed.
Lemma eit_mixed_debug p old ls ss : Forall2 carries ls ss -> Forall framed ss ->
  follows_debug eit_parse eit_reads eit_add p old (map encode (concat ls)) (heard id_eit 18 ss).
Proof.
  intros C F. apply (follows_intro eit_parse (heard1 id_eit 18) eit_reads eit_add p old ls ss (eit_blind Debug) C F).
  - exact (all_wait _ eit_ids 18 ltac:(lia) (eit_pass Debug) ls ss C F).
  - apply (heard1_pass _ _ eit_ids); [exact id_eit_ids|exact (eit_pass Debug)].
  - intros t s Fs E. destruct (heard1_inv id_eit eit_ids 18 s ltac:(lia) id_eit_ids Fs E) as (H1 & H2 & H3).
    exact (eit_debug t _ s H1 H2 H3).
Qed.

Lemma tot_mixed m p old ls ss ts : Forall2 carries ls ss -> Forall framed ss -> Forall2 tot_reads (heard id_tot 14 ss) ts ->
  exists q, receive m (tot_parse m) p old (map encode (concat ls)) = Ok (q, fold_left tot_add ts old).
Proof.
  intros C F R. pose proof (receive_sections m (tot_parse m) (tot_blind m) ls ss C F) as H.
  specialize (H (all_wait _ tot_ids 14 ltac:(lia) (tot_pass m) ls ss C F) p old).
  rewrite (each_heard (tot_parse m) (heard1 id_tot 14) tot_reads tot_add) with (ts := ts) in H; [exact H| | |assumption|exact R].
  - apply (heard1_pass _ _ tot_ids); [exact id_tot_ids|exact (tot_pass m)].
  - intros t s u Fs E Ru. destruct (heard1_inv id_tot tot_ids 14 s ltac:(lia) id_tot_ids Fs E) as (H1 & H2 & H3).
    exact (tot_parse_section m t _ s u H1 H2 H3 Ru).
Qed.
Lemma tot_mixed_debug p old ls ss : Forall2 carries ls ss -> Forall framed ss ->
  follows_debug tot_parse tot_reads tot_add p old (map encode (concat ls)) (heard id_tot 14 ss).
Proof.
  intros C F. apply (follows_intro tot_parse (heard1 id_tot 14) tot_reads tot_add p old ls ss (tot_blind Debug) C F).
  - exact (all_wait _ tot_ids 14 ltac:(lia) (tot_pass Debug) ls ss C F).
  - apply (heard1_pass _ _ tot_ids); [exact id_tot_ids|exact (tot_pass Debug)].
  - intros t s Fs E. destruct (heard1_inv id_tot tot_ids 14 s ltac:(lia) id_tot_ids Fs E) as (H1 & H2 & H3).
    exact (tot_debug t _ s H1 eq_refl H2 H3).
Qed.
