(** Proofs: what can make a receiver abort. *)
From Verif Require Import Prelude Layout Facts Facts2 S_ts S_crc S_utils S_psi M_bytes M_ts M_crc M_utils M_psi M_drive M_recv M_desc S_desc
  M_tables S_tables P_bytes P_crc P_utils P_psi P_mux P_mux2 P_sect P_mux3 P_desc P_desc2 P_desc3 W_psi W_desc P_tab P_tab2 P_tab5 P_tab6 P_tab7 P_tot2 W_tables
  M_reader S_reader P_reader M_system S_system P_sys P_sys2 S_packed P_packed P_loss S_origin P_origin S_stops.

Lemma harmless_no m p x : p_cc p < 16 -> harmless m x -> ~ mux_aborts m p x.
Proof.
  intros C H (F & A). destruct (H F) as (H1 & H2). destruct A as [(-> & A1 & A2)|(A1 & A2)]; [specialize (H1 eq_refl A1); lia|].
  assert (W : ~ debug_wrap m p) by (intros (_ & E); rewrite E in C; lia).
  destruct (flag x 9); [|contradiction]. specialize (H2 A1 eq_refl). cbv zeta in H2.
  destruct A2 as (A2 & [A3|(_ & A3)]); [contradiction|]. destruct H2 as [H2|[H2|H2]]; [lia|lia|]. exact (N.lt_irrefl _ (N.lt_le_trans _ _ _ A3 H2)).
Qed.
Lemma harmless_mux m p x : ts_packet x -> p_cc p < 16 -> harmless m x -> exists q, psi_mux m p x = Ok q.
Proof. intros (L & B) C H. apply (mux_panic_iff m p x L B); [lia|]. exact (harmless_no m p x C H). Qed.
Lemma harmless_default m x : ts_packet x -> harmless m x <-> exists q, psi_mux m psi_default x = Ok q.
Proof.
  intros X. split; [apply harmless_mux; [exact X|reflexivity]|]. intros (q & E) F. destruct X as (L & B).
  assert (A : ~ mux_aborts m psi_default x).
  { intros A. rewrite (proj1 (mux_panic_iff m psi_default x L B eq_refl) A) in E. discriminate. }
  unfold mux_aborts in A. cbv zeta in A. split.
  - intros -> F1. destruct (N.le_gt_cases (field x 32 8) 250) as [|G]; [assumption|]. exfalso. apply A. split; [exact F|]. left. auto.
  - intros P F1. cbv zeta. set (v := nth (N.to_nat (payload_at x)) x 0) in *. rewrite F1 in A.
    destruct (N.eq_dec v 0) as [|V0]; [auto|]. destruct (N.le_gt_cases 183 v) as [|V1]; [auto|].
    destruct (N.le_gt_cases (payload_at x + 1 + v) 188) as [|V2]; [auto|]. exfalso. apply A. split; [exact F|]. right. split; [exact P|].
    split; [lia|]. right. split; [left; reflexivity|exact V2].
Qed.

Section Table.
Context {T : Type} (m : mode) (parse : T -> psi -> res T) (f : list N -> bool) (safe : list N -> Prop) (cut : list (list N) -> Prop).
Definition survives : Prop := forall d t p, Forall ts_packet d -> mux_all m psi_default d = Ok p -> consistent p -> ~ cut d ->
  ((0 < p_size p <= length (p_buffer p))%nat -> f (firstn (p_size p) (p_buffer p)) = true -> safe (firstn (p_size p) (p_buffer p))) ->
  exists u, parse t p = Ok u.
Context (X : survives) (CUT : forall a b, cut a -> cut (a ++ b)).
Lemma survive_run l : forall d p t, Forall ts_packet (d ++ l) -> Forall (harmless m) l -> mux_all m psi_default d = Ok p -> ~ cut (d ++ l) ->
  (forall s, part_of (d ++ l) s -> f s = true -> safe s) -> exists q u, receive m parse p t l = Ok (q, u).
Proof.
  induction l as [|x l IH]; intros d p t P H D C S; cbn [receive]; [eauto|].
  inversion H as [|? ? H1 H2]; subst.
  assert (Px : ts_packet x) by (rewrite Forall_forall in P; apply P; apply in_or_app; right; left; reflexivity).
  assert (Pd : Forall ts_packet d) by (apply Forall_app in P; apply P).
  destruct (reachable_inv m d p Pd D) as (_ & Hc & _).
  destruct (harmless_mux m p x Px Hc H1) as (p1 & E1). rewrite E1. cbn [bind].
  assert (D1 : mux_all m psi_default (d ++ [x]) = Ok p1) by (rewrite mux_all_snoc, D; exact E1).
  replace (d ++ x :: l) with ((d ++ [x]) ++ l) in * by (rewrite <- app_assoc; reflexivity).
  assert (P1 : Forall ts_packet (d ++ [x])) by (apply Forall_app in P; apply P).
  destruct (reachable_inv m (d ++ [x]) p1 P1 D1) as (C1 & _).
  destruct (X (d ++ [x]) t p1 P1 D1 C1) as (u & E2).
  - intros K. apply C. apply CUT. exact K.
  - intros L G. apply S; [|exact G]. apply part_more. exact (held m (d ++ [x]) p1 P1 D1 L).
  - rewrite E2. cbn [bind]. exact (IH (d ++ [x]) p1 u P H2 D1 C S).
Qed.
End Table.

Definition uncut (l : list (list N)) : Prop := False.
Lemma safe_pass {T} m (parse : T -> psi -> res T) fi (ids : N -> Prop) min (safe : list N -> Prop) : (8 <= min)%nat -> (forall b, b < 256 -> fi b = true <-> ids b) ->
  (forall t p, consistent p -> ~ accepted ids min p -> parse t p = Ok t) ->
  (forall t p s, has p s -> ids (field s 0 8) -> (min <= length s)%nat -> safe s -> exists u, parse t p = Ok u) ->
  survives m parse (heard1 fi min) safe uncut.
Proof.
  intros Hm Hf P R d t p _ _ C _ S.
  assert (G : (accepted ids min p -> exists u, parse t p = Ok u) -> exists u, parse t p = Ok u).
  { intros G. destruct (le_lt_dec min (p_size p)) as [A1|A1]; [|exists t; apply P; [exact C|intros ((? & _) & _); lia]].
    destruct (le_lt_dec (p_size p) (length (p_buffer p))) as [A2|A2]; [|exists t; apply P; [exact C|intros ((_ & ?) & _); lia]].
    destruct (N.eq_dec (crc_spec (firstn (p_size p) (p_buffer p))) 0) as [A3|A3]; [|exists t; apply P; [exact C|intros (_ & _ & ?); contradiction]].
    destruct (fi (field (p_buffer p) 0 8)) eqn:A4.
    - apply G. split; [lia|]. split; [apply Hf; [apply (field_lt _ 0 8)|exact A4]|exact A3].
    - exists t. apply P; [exact C|]. intros (_ & I & _). apply Hf in I; [congruence|apply (field_lt _ 0 8)]. }
  apply G. intros A. destruct (accepted_has ids min p C Hm A) as (A1 & A2 & A3 & A4). rewrite <- A2 in A4. apply (R t p _ A1 A3 A4).
  apply S; [destruct A as (A & _); lia|]. unfold heard1. rewrite !andb_true_iff, Nat.leb_le, N.eqb_eq, Hf by apply (field_lt _ 0 8).
  split; [split; [exact A4|exact A3]|]. apply A.
Qed.
Lemma settle {T} (r : res T) : ends r -> r <> Panic -> exists u, r = Ok u.
Proof. unfold ends. destruct r; [eauto|congruence|congruence]. Qed.
Lemma inside_oob l : loop_inside l -> ~ loop_oob l.
Proof. intros H (recs & tail & t & b & E & I & J & O). exact (H recs tail t b E I J O). Qed.
Lemma entries_oob h l : entries_inside h l -> ~ exists r, entry_of h l r /\ loop_oob (skipn h r).
Proof. intros H (r & (recs & tail & E & C & F & I) & O). exact (inside_oob _ (H recs tail r E C F I) O). Qed.

Lemma pat_survives m : survives m (pat_parse m) (heard1 id_pat 12) (fun _ => True) uncut.
Proof. intros d t p _ _ C _ _. apply pat_total. exact C. Qed.
Lemma pmt_survives m : survives m (pmt_parse m) (heard1 id_pmt 16) (pmt_safe m) uncut.
Proof.
  apply (safe_pass m (pmt_parse m) id_pmt pmt_ids 16 (pmt_safe m)); [lia|exact id_pmt_ids|exact (pmt_pass m)|].
  intros t p s H I L S. destruct m; cbn [pmt_safe] in S; cbv zeta in S.
  - destruct S as (S1 & (ds & S2) & items & S3). exists (pmt_add t (mkPmt (field s 42 5) (field s 24 16) (field s 67 13) ds items)).
    apply (pmt_debug t p s H I L). eexists. split; [|reflexivity]. exists ds, items. split; [reflexivity|]. split; [lia|]. auto.
  - destruct S as (S1 & S2 & S3). apply settle; [exact (pmt_ends Release t p s H I L)|]. intros E. apply (pmt_release t p s H I L) in E. cbv zeta in E.
    destruct E as [E|[E|E]]; [lia|exact (inside_oob _ S2 E)|exact (entries_oob _ _ S3 E)].
Qed.
Lemma nit_survives m : survives m (nit_parse m) (heard1 id_nit 16) (nit_safe m) uncut.
Proof.
  apply (safe_pass m (nit_parse m) id_nit nit_ids 16 (nit_safe m)); [lia|exact id_nit_ids|exact (nit_pass m)|].
  intros t p s H I L S. destruct m; cbn [nit_safe] in S; cbv zeta in S.
  - destruct S as (u & S). exists (nit_add t u). apply (nit_debug t p s H I L). eauto.
  - destruct S as (S1 & S2 & S3). apply settle; [exact (nit_ends Release t p s H I L)|]. intros E. apply (nit_release t p s H I L) in E. cbv zeta in E.
    destruct E as [E|[E|E]]; [lia|exact (inside_oob _ S2 E)|exact (entries_oob _ _ S3 E)].
Qed.
Lemma sdt_survives m : survives m (sdt_parse m) (heard1 id_sdt 15) (sdt_safe m) uncut.
Proof.
  apply (safe_pass m (sdt_parse m) id_sdt sdt_ids 15 (sdt_safe m)); [lia|exact id_sdt_ids|exact (sdt_pass m)|].
  intros t p s H I L S. destruct m; cbn [sdt_safe] in S.
  - destruct S as (u & S). exists (sdt_add t u). apply (sdt_debug t p s H I L). eauto.
  - apply settle; [exact (sdt_ends Release t p s H I L)|]. intros E. apply (sdt_release t p s H I L) in E. exact (entries_oob _ _ S E).
Qed.
Lemma eit_survives m : survives m (eit_parse m) (heard1 id_eit 18) (eit_safe m) uncut.
Proof.
  apply (safe_pass m (eit_parse m) id_eit eit_ids 18 (eit_safe m)); [lia|exact id_eit_ids|exact (eit_pass m)|].
  intros t p s H I L S. destruct m; cbn [eit_safe] in S.
  - destruct S as (u & S). exists (eit_add t u). apply (eit_debug t p s H I L). eauto.
  - apply settle; [exact (eit_ends Release t p s H I L)|]. intros E. apply (eit_release t p s H I L) in E. exact (entries_oob _ _ S E).
Qed.
Lemma tot_survives m : survives m (tot_parse m) (heard1 id_tot 14) (tot_safe m) uncut.
Proof.
  apply (safe_pass m (tot_parse m) id_tot tot_ids 14 (tot_safe m)); [lia|exact id_tot_ids|exact (tot_pass m)|].
  intros t p s H I L (S0 & S). cbv zeta in S0, S. destruct m.
  - destruct S as (u & S). exists (tot_add t u). apply (tot_debug_inside t p s H I S0). eauto.
  - apply settle; [exact (tot_ends Release t p s H I L)|]. intros E. apply (tot_release_any t p s H I L) in E. cbv zeta in E.
    destruct H as (_ & _ & extra & B & _). rewrite B in E. rewrite app_length in E. destruct E as [E|E]; [lia|].
    apply (inside_oob _ S). rewrite skipn_app in E. rewrite firstn_app in E.
    replace (N.to_nat (field s 68 12) - length (skipn 10 s))%nat with 0%nat in E by (rewrite skipn_length; lia). rewrite firstn_O, app_nil_r in E. exact E.
Qed.
Lemma ending_end l c cc : ending (loaded l) c cc -> end_of l c.
Proof. intros (b & run & x & pre & E & I & F & _ & K). exists b, (run ++ [x]), pre. split; [exact E|]. split; [exact I|]. split; [exact F|exact K]. Qed.
Lemma tdt_survives m : survives m (tdt_parse m) heard1_tdt (tdt_safe m) tdt_cut.
Proof.
  intros d t p P D C K S.
  destruct (Nat.eq_dec (p_size p) 8) as [A1|A1]; [|exists t; apply tdt_pass; [exact C|tauto]].
  destruct (N.eq_dec (field (p_buffer p) 0 8) 0x70) as [A2|A2]; [|exists t; apply tdt_pass; [exact C|tauto]].
  destruct (le_lt_dec 8 (length (p_buffer p))) as [L|L].
  - assert (Z : tdt_safe m (firstn 8 (p_buffer p))).
    { rewrite <- A1. apply S; [lia|]. unfold heard1_tdt. rewrite firstn_length, A1. replace (Nat.min 8 (length (p_buffer p))) with 8%nat by lia.
      rewrite <- (tdt_field p 0 8) by lia. rewrite A2. reflexivity. }
    destruct m; [|exact (tdt_release t p C L)]. destruct Z as (u & Z). exists u. apply (tdt_debug t p C A1 A2 L). eauto.
  - exfalso. apply K. pose proof (origin_run m d [] psi_default p P origin_default D) as O. cbn [app] in O. destruct O as [O|(c1 & c2 & O1 & O2 & O3)].
    + destruct C as (_ & [(C & _)|(C & _)]); [lia|rewrite O in C; cbn in C; lia].
    + assert (E : c1 = []) by (destruct O3 as [O3|(O3 & _)]; [exact O3|rewrite O1, app_length in L; lia]). subst c1. cbn [app] in O1.
      exists d, [], c2. split; [rewrite app_nil_r; reflexivity|]. rewrite <- O1 in *. split; [exact (ending_end d _ _ O2)|].
      destruct C as (_ & [(C & _)|(C1 & C2)]); [lia|]. split; [lia|]. split; [exact A2|congruence].
Qed.
Lemma tdt_cut_more a b : tdt_cut a -> tdt_cut (a ++ b).
Proof. intros (d & r & c & -> & H). exists d, (r ++ b), c. split; [rewrite app_assoc; reflexivity|exact H]. Qed.
