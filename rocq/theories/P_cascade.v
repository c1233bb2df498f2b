(** Remultiplexers one after another. *)
From Verif Require Import Prelude Layout Facts Facts2 S_ts S_psi P_ts W_ts P_psi P_mux M_ts M_remux S_remux P_remux M_cascade S_cascade.

Lemma retag_own pk : sound pk -> retag (field pk 11 13) pk = pk.
Proof. intros (L & B & _). symmetry. apply ts_header_complete; [lia|exact B]. Qed.
Lemma recount_own pk : sound pk -> recount (field pk 28 4) pk = pk.
Proof. intros (L & B & _). symmetry. apply ts_header_complete; [lia|exact B]. Qed.
Lemma f_prio a b c d e f g h i rest : field (ts_header a b c d e f g h i ++ rest) 10 1 = d mod 2.
Proof. exact (field_layout [(8%nat, a); (1%nat, b); (1%nat, c)] 1 d [(13%nat, e); (2%nat, f); (1%nat, g); (1%nat, h); (4%nat, i)] rest eq_refl). Qed.
Lemma fsmall pk off w : field pk off w mod 2 ^ N.of_nat w = field pk off w.
Proof. apply N.mod_small, field_lt. Qed.
Lemma retag_retag p q pk : retag q (retag p pk) = retag q pk.
Proof.
  unfold retag. rewrite f_sync, f_tei, f_pusi, f_prio, f_tsc, f_af, f_pl, f_cc, skip4.
  f_equal. f_equal; first [exact (fsmall pk _ 8)|exact (fsmall pk _ 1)|exact (fsmall pk _ 2)|exact (fsmall pk _ 4)].
Qed.
Lemma recount_recount p q pk : recount q (recount p pk) = recount q pk.
Proof.
  unfold recount. rewrite f_sync, f_tei, f_pusi, f_prio, f_pid, f_tsc, f_af, f_pl, skip4.
  f_equal. f_equal; first [exact (fsmall pk _ 8)|exact (fsmall pk _ 1)|exact (fsmall pk _ 2)|exact (fsmall pk _ 4)|exact (fsmall pk _ 13)].
Qed.
Lemma recount_retag c q pk : c < 16 -> q < 8192 -> recount c (retag q pk) = retag q (recount c pk).
Proof.
  intros C Q. unfold recount, retag. rewrite !f_sync, !f_tei, !f_pusi, !f_prio, !f_pid, !f_tsc, !f_af, !f_pl, !f_cc, !skip4. f_equal.
  rewrite (N.mod_small q) by exact Q. rewrite (N.mod_small c) by exact C. reflexivity.
Qed.

Lemma routed_sound route l : Forall sound l -> Forall sound (routed route l).
Proof.
  induction 1 as [|pk l S _ IH]; [constructor|]. unfold routed. cbn [flat_map]. apply Forall_app. split; [|exact IH].
  destruct (route (field pk 11 13)); constructor; [apply retag_sound; exact S|constructor].
Qed.
Lemma routed_cons route pk l : routed route (pk :: l) = match route (field pk 11 13) with Some q => [retag q pk] | None => [] end ++ routed route l.
Proof. reflexivity. Qed.
Lemma routed_own route l : Forall sound l -> Forall (fun pk => route (field pk 11 13) = Some (field pk 11 13)) l -> routed route l = l.
Proof. induction 1 as [|pk l S _ IH]; intros F; [reflexivity|]. inversion F as [|? ? E F']; subst. rewrite routed_cons, E, (IH F'). cbn [app]. rewrite retag_own by exact S. reflexivity. Qed.
Lemma routed_routed r r2 l : (forall x y, r x = Some y -> y < 8192) -> routed r2 (routed r l) = routed (fun pid => match r pid with Some q => r2 q | None => None end) l.
Proof.
  intros R. induction l as [|pk l IH]; [reflexivity|]. rewrite !routed_cons. destruct (r (field pk 11 13)) as [q|] eqn:E; [|exact IH].
  cbn [app]. rewrite routed_cons, IH, (retag_pid q pk (R _ _ E)). destruct (r2 q); [|reflexivity]. rewrite retag_retag. reflexivity.
Qed.
Lemma remaps_spec stages : Forall (fun st : mode * (N -> option N) => forall x y, snd st x = Some y -> y < 8192) stages -> forall l, Forall sound l ->
  remaps stages l = Ok (routed (through (map snd stages)) l).
Proof.
  induction 1 as [|[m r] stages R _ IH]; intros l S; cbn [remaps map].
  - f_equal. symmetry. apply routed_own; [exact S|]. apply Forall_forall. intros pk _. reflexivity.
  - cbn [snd] in R. rewrite (remap_spec m r l S R). cbn [bind]. rewrite (IH _ (routed_sound r l S)), (routed_routed r _ l R). reflexivity.
Qed.

Lemma renumbered_sound l : Forall sound l -> forall c, Forall sound (renumbered c l).
Proof. induction 1 as [|pk l S _ IH]; intros c; [constructor|]. cbn [renumbered]. constructor; [apply recount_sound; exact S|apply IH]. Qed.
Lemma renumbered_again l : forall c d, renumbered d (renumbered c l) = renumbered d l.
Proof.
  induction l as [|pk l IH]; intros c d; [reflexivity|]. cbn [renumbered]. cbv zeta. rewrite recount_pl, recount_recount, IH. reflexivity.
Qed.
Lemma renumbers_last stages m c : c < 16 -> Forall (fun st : mode * N => snd st < 16) stages -> forall l, Forall sound l -> renumbers (stages ++ [(m, c)]) l = Ok (renumbered c l).
Proof.
  intros C. induction 1 as [|[m' d] stages D _ IH]; intros l S; cbn [app renumbers].
  - rewrite (renumber_spec m l S c C). reflexivity.
  - rewrite (renumber_spec m' l S d D). cbn [bind]. rewrite (IH _ (renumbered_sound l S d)), renumbered_again. reflexivity.
Qed.
Lemma renumbered_keeps l : Forall sound l -> Forall (fun pk => flag pk 27 = true) l -> forall c, unbroken c l -> renumbered c l = l.
Proof.
  induction 1 as [|pk l S _ IH]; intros F c U; [reflexivity|]. inversion F as [|? ? E F']; subst. cbn [renumbered unbroken] in *. rewrite E in *. destruct U as [U1 U2].
  rewrite <- U1, (IH F' _ U2), (recount_own pk S). reflexivity.
Qed.
Lemma recount_routed route pid : (forall x y, route x = Some y -> y < 8192) -> forall l, Forall (fun pk => field pk 11 13 = pid) l -> forall c, c < 16 ->
  routed route (renumbered c l) = renumbered c (routed route l).
Proof.
  intros R. induction 1 as [|pk l P F IH]; intros c C; [reflexivity|]. cbn [renumbered]. cbv zeta. rewrite !routed_cons, recount_pid, P.
  set (c' := if flag pk 27 then (c + 1) mod 16 else c). assert (C' : c' < 16) by (unfold c'; destruct (flag pk 27); [apply N.mod_lt; discriminate|exact C]).
  rewrite (IH c' C'). destruct (route pid) as [q|] eqn:E.
  - cbn [app renumbered]. cbv zeta. rewrite retag_pl. fold c'. rewrite (recount_retag c' q pk C' (R _ _ E)). reflexivity.
  - cbn [app]. assert (Z : routed route l = []); [|rewrite Z; reflexivity]. clear - F E. induction F as [|pk l P _ IH]; [reflexivity|]. rewrite routed_cons, P, E. exact IH.
Qed.

(** ** a new header and a new clock *)
From Verif Require Import S_measure S_restamp P_restamp M_restamp.
Lemma new_header a b c d e f h i k pk : packet pk -> later k (ts_header a b c d e f (field pk 26 1) h i ++ skipn 4 pk) = ts_header a b c d e f (field pk 26 1) h i ++ skipn 4 (later k pk).
Proof.
  intros (L & B). unfold later.
  assert (P : has_pcr (ts_header a b c d e f (field pk 26 1) h i ++ skipn 4 pk) = has_pcr pk).
  { unfold has_pcr, flag. rewrite f_af, flag_field, !behind by lia. reflexivity. }
  assert (V : pcr_of (ts_header a b c d e f (field pk 26 1) h i ++ skipn 4 pk) = pcr_of pk) by (unfold pcr_of; rewrite !behind by lia; reflexivity).
  rewrite P, V. destruct (has_pcr pk); [|reflexivity]. cbv zeta. generalize (pcr_bytes ((pcr_of pk + k) mod PERIOD / 300) 63 ((pcr_of pk + k) mod PERIOD mod 300)). intros X.
  pose proof (hd_len a b c d e f (field pk 26 1) h i) as LH. revert LH. generalize (ts_header a b c d e f (field pk 26 1) h i). intros H LH.
  do 4 (destruct H as [|? H]; [discriminate|]). destruct H; [|discriminate]. clear - L. do 12 (destruct pk as [|? pk]; [discriminate|]). reflexivity.
Qed.
Lemma retag_later q k pk : packet pk -> retag q (later k pk) = later k (retag q pk).
Proof.
  intros P. unfold retag. rewrite (new_header _ _ _ _ _ _ _ _ k pk P). rewrite !(later_field k pk) by (exact P || lia). reflexivity.
Qed.
Lemma recount_later c k pk : packet pk -> recount c (later k pk) = later k (recount c pk).
Proof.
  intros P. unfold recount. rewrite (new_header _ _ _ _ _ _ _ _ k pk P). rewrite !(later_field k pk) by (exact P || lia). reflexivity.
Qed.
Lemma routed_later route k l : Forall packet l -> routed route (map (later k) l) = map (later k) (routed route l).
Proof.
  induction 1 as [|pk l P _ IH]; [reflexivity|]. cbn [map]. rewrite !routed_cons, map_app, IH, (later_field k pk 11 13 P) by lia. f_equal.
  destruct (route (field pk 11 13)); [|reflexivity]. cbn [map]. rewrite (retag_later _ k pk P). reflexivity.
Qed.
Lemma renumbered_later k l : Forall packet l -> forall c, renumbered c (map (later k) l) = map (later k) (renumbered c l).
Proof.
  induction 1 as [|pk l P _ IH]; intros c; [reflexivity|]. cbn [map renumbered]. cbv zeta. rewrite (recount_later _ k pk P).
  replace (flag (later k pk) 27) with (flag pk 27) by (unfold flag; rewrite (later_field k pk 27 1 P) by lia; reflexivity). rewrite IH. reflexivity.
Qed.
Lemma sound_packets l : Forall sound l -> Forall packet l.
Proof. intros F. eapply Forall_impl; [|exact F]. intros pk (L & B & _). exact (conj L B). Qed.
