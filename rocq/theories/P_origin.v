(** Proofs: where the bytes of a section come from. *)
From Verif Require Import Prelude Layout Facts Facts2 S_ts S_crc S_utils S_psi M_bytes M_ts M_crc M_utils M_psi M_drive M_recv M_desc S_desc
  M_tables S_tables P_bytes P_crc P_utils P_psi P_mux P_mux2 P_sect P_mux3 P_desc P_desc2 P_desc3 W_psi W_desc P_tab P_tab2 P_tab5 P_tab6 P_tab7 W_tables
  M_reader S_reader P_reader M_system S_system P_sys P_sys2 S_packed P_packed P_loss S_origin.

Definition cc_of (x : list N) : N := field x 28 4.
Definition live (x : list N) : Prop := payload_at x < 188.
(** [c] is the end of what came in step up to now *)
Definition ending (l : list (list N)) (c : list N) (cc : N) : Prop :=
  exists before run x pre, l = before ++ run ++ [x] /\ in_step (run ++ [x]) /\ Forall live (run ++ [x]) /\ cc_of x = cc /\
    concat (map body (run ++ [x])) = pre ++ c.
Definition piece (l : list (list N)) (s : list N) : Prop :=
  exists before run behind pre post, l = before ++ run ++ behind /\ in_step run /\ Forall live run /\ concat (map body run) = pre ++ s ++ post.

Lemma follow_app a : forall cc b, follow_on cc (a ++ b) <-> follow_on cc a /\ follow_on (last (map cc_of a) cc) b.
Proof. induction a as [|x a IH]; intros cc b; cbn [app follow_on map]; [cbn; tauto|]. rewrite last_cons, IH. unfold cc_of at 2. tauto. Qed.
Lemma step_snoc run x y : in_step (run ++ [x]) -> cc_of y = (cc_of x + 1) mod 16 -> in_step ((run ++ [x]) ++ [y]).
Proof.
  intros H E. destruct run as [|r run]; cbn [app in_step follow_on] in *.
  - split; [exact E|exact I].
  - apply follow_app. split; [exact H|]. rewrite map_app. cbn [map]. rewrite last_app_cons. cbn [last follow_on]. split; [exact E|exact I].
Qed.
Lemma piece_more l y s : piece l s -> piece (l ++ y) s.
Proof. intros (a & r & b & pre & post & -> & H). exists a, r, (b ++ y), pre, post. split; [rewrite <- !app_assoc; reflexivity|exact H]. Qed.
Lemma ending_piece l c cc s t : ending l c cc -> c = s ++ t -> piece l s.
Proof.
  intros (a & r & x & pre & -> & H1 & H2 & _ & H3) ->. exists a, (r ++ [x]), [], pre, t. rewrite app_nil_r. auto.
Qed.
Lemma ending_skip l c cc n : ending l c cc -> ending l (skipn n c) cc.
Proof.
  intros (a & r & x & pre & -> & H1 & H2 & H4 & H3). exists a, r, x, (pre ++ firstn n c). rewrite <- app_assoc, firstn_skipn. auto 6.
Qed.
Lemma ending_new l x c pre : live x -> body x = pre ++ c -> ending (l ++ [x]) c (cc_of x).
Proof.
  intros H E. exists l, [], x, pre. cbn [app in_step follow_on map concat]. rewrite app_nil_r. split; [reflexivity|]. split; [exact I|]. split; [constructor; [exact H|constructor]|]. auto.
Qed.
Lemma ending_next l c cc x : ending l c cc -> live x -> cc_of x = (cc + 1) mod 16 -> ending (l ++ [x]) (c ++ body x) (cc_of x).
Proof.
  intros (a & r & y & pre & -> & H1 & H2 & <- & H3) L E. exists a, (r ++ [y]), x, pre. split; [rewrite <- !app_assoc; reflexivity|].
  split; [apply step_snoc; assumption|]. split; [apply Forall_app; split; [exact H2|constructor; [exact L|constructor]]|]. split; [reflexivity|].
  rewrite map_app, concat_app, H3. cbn [map concat]. rewrite app_nil_r, <- app_assoc. reflexivity.
Qed.

(** what a Psi holds *)
Definition origin (l : list (list N)) (p : psi) : Prop :=
  p_buffer p = [] \/
  exists c1 c2, p_buffer p = c1 ++ c2 /\ ending l c2 (p_cc p) /\ (c1 = [] \/ (length c1 = p_size p /\ piece l c1)).
Lemma origin_skip l p x : origin l p -> p_buffer p = [] \/ flag x 27 = false -> origin (l ++ (if flag x 27 then [x] else [])) p.
Proof. intros H [E|E]; [left; exact E|]. rewrite E, app_nil_r. exact H. Qed.

Lemma push_inv p t q : psi_push p t = Ok q -> p_buffer q = p_buffer p ++ t /\ p_cc q = p_cc p /\ (p_size p <> 0%nat -> p_size q = p_size p).
Proof.
  unfold psi_push. intros H. destruct ((p_size p =? 0) && (3 <=? length (p_buffer p ++ t)))%nat eqn:E.
  - apply bind_inv in H as (v & _ & H). injection H as <-. cbn [p_buffer p_cc]. split; [reflexivity|]. split; [reflexivity|]. intros N0.
    apply andb_prop in E as [E _]. apply Nat.eqb_eq in E. contradiction.
  - injection H as <-. auto.
Qed.
Lemma breaks_inv m p cc : cc_breaks m p cc = Ok false -> cc = (p_cc p + 1) mod 16.
Proof.
  unfold cc_breaks. intros H. apply bind_inv in H as (n & E & H). injection H as H. apply negb_false_iff, N.eqb_eq in H. subst cc.
  change 15 with (N.ones 4). rewrite N.land_ones. change (2 ^ 4) with 16. unfold addw, U8 in E. destruct (p_cc p + 1 <? 256) eqn:L; destruct m; try discriminate; injection E as <-; try reflexivity.
  all: clear; dlia.
Qed.
(** the section stays, the rest is cut *)
Lemma origin_cut l c1 c2 p q : ending l c2 (p_cc p) -> p_buffer p = c1 ++ c2 -> c1 = [] \/ (length c1 = p_size p /\ piece l c1) ->
  p_cc q = p_cc p -> p_size q = p_size p -> (p_size p < length (p_buffer p))%nat -> p_buffer q = firstn (p_size p) (p_buffer p) -> origin l q.
Proof.
  intros E Eb H Ec Es L Eq. destruct (p_size p) as [|n] eqn:Z; [left; rewrite Eq; reflexivity|]. right. rewrite <- Z in *.
  assert (E0 : ending l [] (p_cc q)).
  { rewrite Ec. pose proof (ending_skip _ _ _ (length c2) E) as K. rewrite skipn_all in K. exact K. }
  exists (firstn (p_size p) (p_buffer p)), []. rewrite app_nil_r. split; [exact Eq|]. split; [exact E0|]. right. split; [rewrite firstn_length; lia|].
  destruct H as [->|[H1 H2]].
  - cbn [app] in Eb. rewrite Eb. apply (ending_piece l c2 (p_cc p) _ (skipn (p_size p) c2) E). symmetry. apply firstn_skipn.
  - rewrite Eb, <- H1, firstn_app, firstn_all, Nat.sub_diag, firstn_O, app_nil_r. exact H2.
Qed.
Lemma origin_trunc l c1 c2 p : ending l c2 (p_cc p) -> p_buffer p = c1 ++ c2 -> c1 = [] \/ (length c1 = p_size p /\ piece l c1) -> origin l (trunc p).
Proof.
  intros E Eb H. unfold trunc. destruct (Nat.ltb_spec (p_size p) (length (p_buffer p))) as [L|L]; [|right; eauto].
  rewrite resize_shrink by lia. exact (origin_cut l c1 c2 p (with_buffer p (firstn (p_size p) (p_buffer p))) E Eb H eq_refl eq_refl L eq_refl).
Qed.
Lemma origin_trunc_nz l c1 c2 p : ending l c2 (p_cc p) -> p_buffer p = c1 ++ c2 -> c1 = [] \/ (length c1 = p_size p /\ piece l c1) -> origin l (trunc_nz p).
Proof.
  intros E Eb H. unfold trunc_nz. destruct (Nat.ltb_spec (p_size p) (length (p_buffer p))) as [L|L]; [|rewrite andb_false_r; right; eauto].
  destruct (negb (p_size p =? 0)%nat); cbn [andb]; [|right; eauto].
  rewrite resize_shrink by lia. exact (origin_cut l c1 c2 p (with_buffer p (firstn (p_size p) (p_buffer p))) E Eb H eq_refl eq_refl L eq_refl).
Qed.
Lemma trunc_cc p cc : with_cc (trunc p) cc = trunc (with_cc p cc).
Proof. unfold trunc. cbn [with_cc p_size p_buffer]. destruct (p_size p <? length (p_buffer p))%nat; reflexivity. Qed.
Lemma trunc_nz_cc p cc : with_cc (trunc_nz p) cc = trunc_nz (with_cc p cc).
Proof. unfold trunc_nz. cbn [with_cc p_size p_buffer]. destruct (negb (p_size p =? 0) && (p_size p <? length (p_buffer p)))%nat; reflexivity. Qed.

Lemma origin_step m l p x q : ts_packet x -> origin l p -> psi_mux m p x = Ok q -> origin (l ++ (if flag x 27 then [x] else [])) q.
Proof.
  intros [L B] O E. rewrite (psi_mux_eq m p x L B) in E. destruct (flag x 27) eqn:Pl; [|injection E as <-; rewrite app_nil_r; exact O].
  apply bind_inv in E as (off & Eo & E). apply (payload_offset_at m) in Eo; [|lia|exact B]. subst off.
  destruct (Nat.leb_spec 188 (N.to_nat (payload_at x))) as [K|K]; [injection E as <-; left; reflexivity|].
  assert (Lv : live x) by (unfold live; lia).
  destruct (skipn (N.to_nat (payload_at x)) x) as [|b t] eqn:Es; [injection E as <-; left; reflexivity|].
  cbn [mux_payload] in E. fold (cc_of x) in E. destruct (flag x 9) eqn:Pu.
  - assert (Eb : body x = t).
    { unfold body. rewrite Pu. replace (N.to_nat (payload_at x) + 1)%nat with (1 + N.to_nat (payload_at x))%nat by lia. rewrite <- skipn_skipn, Es. reflexivity. }
    destruct (Nat.leb_spec 183 (N.to_nat b)) as [K2|K2]; [injection E as <-; left; reflexivity|].
    apply bind_inv in E as (r & Er & E). cbv zeta in E.
    assert (New : forall p1, p_buffer p1 = [] -> (p <- (pay <- slice_from t (N.to_nat b) ;; p <- psi_push p1 pay ;; Ok (trunc_nz p)) ;; Ok (with_cc p (cc_of x))) = Ok q -> origin (l ++ [x]) q).
    { intros p1 E1 G. apply bind_inv in G as (p3 & G & Q). apply bind_inv in G as (pay & Ep & G). apply bind_inv in G as (p2 & Eq & G). injection G as <-. injection Q as <-.
      apply push_inv in Eq as (Q1 & Q2 & _). rewrite E1 in Q1. cbn [app] in Q1. rewrite trunc_nz_cc. apply (origin_trunc_nz _ [] pay); cbn [with_cc p_cc p_buffer]; [|exact Q1|left; reflexivity].
      apply (ending_new l x pay (firstn (N.to_nat b) t) Lv). rewrite Eb. unfold slice_from in Ep. destruct (N.to_nat b <=? length t)%nat; [|discriminate]. injection Ep as <-.
      symmetry. apply firstn_skipn. }
    destruct r; [cbn [psi_clear p_buffer] in E; exact (New (psi_clear p) eq_refl E)|].
    destruct (p_buffer p) as [|y buf] eqn:Ebuf; [exact (New p Ebuf E)|]. clear New.
    destruct (Nat.eqb_spec (N.to_nat b) 0) as [Z|Z]; [discriminate|]. apply breaks_inv in Er.
    apply bind_inv in E as (p2 & Ep & E). injection E as <-. apply push_inv in Ep as (Q1 & Q2 & Q3). right.
    destruct O as [O|(c1 & c2 & O1 & O2 & O3)]; [congruence|]. unfold origin. cbn [with_cc p_buffer p_cc p_size].
    unfold P_mux.drain in Q1, Q2, Q3. destruct (negb (p_size p =? 0) && (p_size p <? length (p_buffer p)))%nat eqn:D.
    + cbn [p_buffer p_cc p_size] in Q1, Q2, Q3. exists [], (p_buffer p2). split; [reflexivity|]. split; [|left; reflexivity]. rewrite Q1, <- Eb.
      apply (ending_next l _ (p_cc p)); [|exact Lv|exact Er]. destruct O3 as [->|[O3 _]]; [rewrite O1; apply ending_skip; exact O2|].
      rewrite O1, <- O3, skipn_app, Nat.sub_diag, skipn_all, skipn_O. exact O2.
    + rewrite O1, <- app_assoc in Q1. exists c1, (c2 ++ t). split; [exact Q1|]. split; [rewrite <- Eb; apply (ending_next l _ (p_cc p)); assumption|].
      destruct O3 as [->|[O3 O4]]; [left; reflexivity|]. destruct c1 as [|z c1]; [left; reflexivity|]. right. split; [|apply piece_more; exact O4].
      rewrite O3. symmetry. apply Q3. rewrite <- O3. discriminate.
  - assert (Eb : body x = b :: t) by (unfold body; rewrite Pu, Nat.add_0_r; exact Es).
    apply bind_inv in E as (r & Er & E). destruct r; [injection E as <-; left; reflexivity|]. apply breaks_inv in Er.
    apply bind_inv in E as (p2 & Ep & E). injection E as <-. apply push_inv in Ep as (Q1 & Q2 & Q3). rewrite trunc_cc.
    destruct O as [O|(c1 & c2 & O1 & O2 & O3)].
    + apply (origin_trunc _ [] (b :: t)); cbn [with_cc p_cc p_buffer]; [|rewrite Q1, O; reflexivity|left; reflexivity]. apply (ending_new l x _ [] Lv). exact Eb.
    + destruct c1 as [|z c1].
      * apply (origin_trunc _ [] (c2 ++ b :: t)); cbn [with_cc p_cc p_buffer]; [|rewrite Q1, O1; reflexivity|left; reflexivity].
        rewrite <- Eb. apply (ending_next l _ (p_cc p)); assumption.
      * destruct O3 as [O3|[O3 O4]]; [discriminate|].
        apply (origin_trunc _ (z :: c1) (c2 ++ b :: t)); cbn [with_cc p_cc p_buffer p_size].
        -- rewrite <- Eb. apply (ending_next l _ (p_cc p)); assumption.
        -- rewrite Q1, O1, <- app_assoc. reflexivity.
        -- right. split; [rewrite O3; symmetry; apply Q3; rewrite <- O3; discriminate|apply piece_more; exact O4].
Qed.

Lemma mux_all_snoc m l : forall p x, mux_all m p (l ++ [x]) = (q <- mux_all m p l ;; psi_mux m q x).
Proof.
  induction l as [|y l IH]; intros p x; cbn [app mux_all bind]; [destruct (psi_mux m p x); reflexivity|].
  destruct (psi_mux m p y) as [q| |]; cbn [bind]; [apply IH|reflexivity|reflexivity].
Qed.
Definition loaded (l : list (list N)) : list (list N) := filter (fun x => flag x 27) l.
Lemma loaded_snoc l x : loaded (l ++ [x]) = loaded l ++ (if flag x 27 then [x] else []).
Proof. unfold loaded. rewrite filter_app. cbn [filter]. destruct (flag x 27); reflexivity. Qed.
Lemma origin_run m l : forall d p q, Forall ts_packet l -> origin (loaded d) p -> mux_all m p l = Ok q -> origin (loaded (d ++ l)) q.
Proof.
  induction l as [|x l IH]; intros d p q P O E; cbn [mux_all] in E; [injection E as <-; rewrite app_nil_r; exact O|].
  inversion P as [|? ? P1 P2]; subst. apply bind_inv in E as (p1 & E1 & E). apply (origin_step m _ _ _ _ P1 O) in E1. rewrite <- loaded_snoc in E1.
  pose proof (IH _ _ _ P2 E1 E) as Z. rewrite <- app_assoc in Z. exact Z.
Qed.
Lemma origin_default : origin (loaded []) psi_default.
Proof. left. reflexivity. Qed.
Lemma origin_section l p : origin (loaded l) p -> (0 < p_size p <= length (p_buffer p))%nat -> part_of l (firstn (p_size p) (p_buffer p)).
Proof.
  intros [E|(c1 & c2 & E1 & E2 & E3)] H; [rewrite E in H; cbn in H; lia|]. change (piece (loaded l) (firstn (p_size p) (p_buffer p))).
  destruct E3 as [->|[E3 E4]].
  - cbn [app] in E1. rewrite E1. apply (ending_piece _ c2 (p_cc p) _ (skipn (p_size p) c2) E2). symmetry. apply firstn_skipn.
  - rewrite E1, <- E3, firstn_app, firstn_all, Nat.sub_diag, firstn_O, app_nil_r. exact E4.
Qed.
Lemma held m l q : Forall ts_packet l -> mux_all m psi_default l = Ok q -> (0 < p_size q <= length (p_buffer q))%nat -> part_of l (firstn (p_size q) (p_buffer q)).
Proof. intros P E. apply origin_section. exact (origin_run m l [] psi_default q P origin_default E). Qed.
Lemma part_more l y s : part_of l s -> part_of (l ++ y) s.
Proof. unfold part_of. rewrite filter_app. apply piece_more. Qed.

Section Table.
Context {T : Type} (m : mode) (parse : T -> psi -> res T) (f : list N -> bool).
Fixpoint readings (t : T) (ps : list psi) : res T := match ps with [] => Ok t | p :: ps' => t <- parse t p ;; readings t ps' end.
Definition heeds : Prop := forall t p u, consistent p -> parse t p = Ok u ->
  u = t \/ ((0 < p_size p <= length (p_buffer p))%nat /\ f (firstn (p_size p) (p_buffer p)) = true).
Definition reading (l : list (list N)) (p : psi) : Prop :=
  (p_size p <= length (p_buffer p))%nat /\ part_of l (firstn (p_size p) (p_buffer p)) /\ f (firstn (p_size p) (p_buffer p)) = true.
Context (X : heeds).
Lemma read_run l : forall d p t q u, Forall ts_packet (d ++ l) -> mux_all m psi_default d = Ok p -> receive m parse p t l = Ok (q, u) ->
  exists ps, Forall (reading (d ++ l)) ps /\ readings t ps = Ok u.
Proof.
  induction l as [|x l IH]; intros d p t q u P D E; cbn [receive] in E; [injection E as _ <-; exists []; split; [constructor|reflexivity]|].
  apply bind_inv in E as (p1 & E1 & E). apply bind_inv in E as (t1 & E2 & E).
  assert (D1 : mux_all m psi_default (d ++ [x]) = Ok p1) by (rewrite mux_all_snoc, D; exact E1).
  replace (d ++ x :: l) with ((d ++ [x]) ++ l) in P |- * by (rewrite <- app_assoc; reflexivity).
  destruct (IH (d ++ [x]) p1 t1 q u P D1 E) as (ps & F & R).
  assert (P1 : Forall ts_packet (d ++ [x])) by (apply Forall_app in P; apply P).
  destruct (reachable_inv m (d ++ [x]) p1 P1 D1) as (C & _).
  destruct (X t p1 t1 C E2) as [->|[L H]]; [exists ps; auto|].
  exists (p1 :: ps). split; [|cbn [readings]; rewrite E2; exact R]. constructor; [|exact F]. split; [lia|]. split; [|exact H].
  apply part_more. exact (held m (d ++ [x]) p1 P1 D1 L).
Qed.
End Table.

Lemma heeds_pass {T} (parse : T -> psi -> res T) fi ids min : (1 <= min)%nat -> (forall b, b < 256 -> fi b = true <-> ids b) ->
  (forall t p, consistent p -> ~ accepted ids min p -> parse t p = Ok t) -> heeds parse (heard1 fi min).
Proof.
  intros Hm Hf P t p u C E.
  destruct (le_lt_dec min (p_size p)) as [A1|A1]; [|left; rewrite P in E; [congruence|exact C|intros ((? & _) & _); lia]].
  destruct (le_lt_dec (p_size p) (length (p_buffer p))) as [A2|A2]; [|left; rewrite P in E; [congruence|exact C|intros ((_ & ?) & _); lia]].
  destruct (heard1 fi min (firstn (p_size p) (p_buffer p))) eqn:H; [right; split; [lia|reflexivity]|].
  left. rewrite P in E; [congruence|exact C|]. intros (_ & A3 & A4). rewrite <- not_true_iff_false in H. apply H. unfold heard1.
  rewrite !andb_true_iff, Nat.leb_le, N.eqb_eq, Hf by apply (field_lt _ 0 8). rewrite firstn_length. split; [split; [lia|]|exact A4].
  replace (field (firstn (p_size p) (p_buffer p)) 0 8) with (field (p_buffer p) 0 8); [exact A3|].
  rewrite <- (firstn_skipn (p_size p) (p_buffer p)) at 1. apply field_prefix. rewrite firstn_length. lia.
Qed.
Lemma pat_heeds m : heeds (pat_parse m) (heard1 id_pat 12). Proof. exact (heeds_pass _ _ pat_ids 12 ltac:(lia) id_pat_ids (pat_pass m)). Qed.
Lemma pmt_heeds m : heeds (pmt_parse m) (heard1 id_pmt 16). Proof. exact (heeds_pass _ _ pmt_ids 16 ltac:(lia) id_pmt_ids (pmt_pass m)). Qed.
Lemma nit_heeds m : heeds (nit_parse m) (heard1 id_nit 16). Proof. exact (heeds_pass _ _ nit_ids 16 ltac:(lia) id_nit_ids (nit_pass m)). Qed.
Lemma sdt_heeds m : heeds (sdt_parse m) (heard1 id_sdt 15). Proof. exact (heeds_pass _ _ sdt_ids 15 ltac:(lia) id_sdt_ids (sdt_pass m)). Qed.
Lemma eit_heeds m : heeds (eit_parse m) (heard1 id_eit 18). Proof. exact (heeds_pass _ _ eit_ids 18 ltac:(lia) id_eit_ids (eit_pass m)). Qed.
Lemma tot_heeds m : heeds (tot_parse m) (heard1 id_tot 14). Proof. exact (heeds_pass _ _ tot_ids 14 ltac:(lia) id_tot_ids (tot_pass m)). Qed.
Lemma tdt_heeds m : heeds (tdt_parse m) heard1_tdt.
Proof.
  intros t p u C E. destruct (Nat.eq_dec (p_size p) 8) as [A1|A1]; [|left; rewrite tdt_pass in E; [congruence|exact C|tauto]].
  destruct (N.eq_dec (field (p_buffer p) 0 8) 0x70) as [A2|A2]; [|left; rewrite tdt_pass in E; [congruence|exact C|tauto]].
  destruct (le_lt_dec 8 (length (p_buffer p))) as [L|L]; [|rewrite tdt_short in E by assumption; discriminate].
  right. split; [lia|]. unfold heard1_tdt. rewrite firstn_length, A1. replace (Nat.min 8 (length (p_buffer p))) with 8%nat by lia.
  rewrite <- (tdt_field p 0 8) by lia. rewrite A2. reflexivity.
Qed.
