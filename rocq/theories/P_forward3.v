(** Proofs: the condition is necessary; loops; access to the types. *)
From Verif Require Import Prelude Layout Facts Facts2 S_utils S_text M_bytes M_utils M_text M_desc S_desc P_bytes P_utils P_text2 P_desc P_desc2 P_desc3 W_desc W_desc2 S_forward P_forward P_forward2.

Ltac elsewhere := intros; exfalso; first [lia | congruence | tauto].

Lemma cons_inv {A} (x y : A) l k : x :: l = y :: k -> x = y /\ l = k.
Proof. intros E. injection E. auto. Qed.
(** two sized texts behind the same front *)
Lemma sized_inj x y u v : sized x ++ u = sized y ++ v -> (length (text x) < 256)%nat -> (length (text y) < 256)%nat -> text x = text y /\ u = v.
Proof.
  unfold sized. cbn [app]. intros E H1 H2. injection E as E0 E. assert (L : length (text x) = length (text y)) by lia.
  apply app_inj_len in E; [|exact L]. exact E.
Qed.

Lemma faithful_other t b : ~ In t supported -> faithful t b.
Proof.
  intros U. destruct t as [|p]; [exact I|].
  do 8 (try (destruct p as [p|p|]; try exact I)); exfalso; apply U; cbn; tauto.
Qed.

Lemma kept_needed t b d : bytes b -> (length b < 256)%nat -> reads b t d -> desc_ok d -> body d = b -> faithful t b.
Proof.
  intros Hb Hl R (F & Lb & NI) B.
  destruct R as [L|L|L|L|L|L| |L|L|L N1 N2 N3|L|L N1 N2 N3|L|L E|L|L E|L|items L E I|L|L|L|L G|L|L Q|L|L|L|t U];
    cbn [faithful]; cbn [body fields_ok no_items] in *; try exact Logic.I; try (elsewhere; fail).
  - (* 09 *) intros _. rewrite <- B. apply (field_at _ _ 16 3 7); reflexivity.
  - (* 0A *) intros _. assert (X : Forall (fun g => item_0A (read_0A g) = g) (all_groups 4 b)).
    { apply flat_map_back; [lia|exact Hb|exact L| |exact B]. rewrite Forall_map in F. eapply Forall_impl; [|exact F].
      cbv beta. intros g [F1 _]. apply item_0A_len. exact F1. }
    destruct (all_groups_ok 4 b ltac:(lia) Hb L) as [_ A]. rewrite Forall_forall in *. intros g Hg. destruct (A g Hg). apply entry_0A; auto.
  - (* 0E *) intros _. rewrite <- B. apply (field_at0 _ 0 2 3); reflexivity.
  - (* 40 *) apply text_kept; assumption.
  - (* 43 *) intros _. cbn [d43_freq d43_orbital d43_we d43_pol d43_rof d43_s2 d43_mod d43_rate d43_fec] in *.
    assert (X : field b 56 28 = rate7 (nib_value 6 (field b 56 24)) mod 2 ^ N.of_nat 28) by (rewrite <- B at 1; apply field_at0; reflexivity).
    rewrite rate_kept in X by assumption. pose proof (field_split b 56 24 4 ltac:(lia)) as S. cbn [Nat.add] in S. change (2 ^ N.of_nat 4) with 16 in S.
    pose proof (field_lt b 56 24) as Y. change (2 ^ N.of_nat 24) with 16777216 in Y. change (2 ^ N.of_nat 28) with 268435456 in X.
    rewrite N.mod_small in X by lia. lia.
  - (* 44 *) intros _. cbn [d44_freq d44_outer d44_mod d44_rate d44_fec] in *.
    assert (X : field b 56 28 = rate7 (nib_value 6 (field b 56 24)) mod 2 ^ N.of_nat 28) by (rewrite <- B at 1; apply field_at0; reflexivity).
    rewrite rate_kept in X by assumption. pose proof (field_split b 56 24 4 ltac:(lia)) as S. cbn [Nat.add] in S. change (2 ^ N.of_nat 4) with 16 in S.
    pose proof (field_lt b 56 24) as Y. change (2 ^ N.of_nat 24) with 16777216 in Y. change (2 ^ N.of_nat 28) with 268435456 in X.
    rewrite N.mod_small in X by lia. split; [|lia]. rewrite <- B. apply (field_at0 _ 32 12 0xFFF); reflexivity.
  - (* 48 *) intros _ _. cbn [d48_type d48_provider d48_name] in *.
    pose proof (layout_cut_at [8%nat] 0 1 b Hb ltac:(lia) eq_refl) as C. cbn [cut Nat.mul Nat.add skipn] in C. rewrite C in B, Lb.
    rewrite !app_length in Lb. unfold sized in Lb. cbn [length] in Lb.
    apply (fun e => eq_trans e (eq_sym (firstn_skipn 1 b))) in B. apply app_inv_head in B.
    rewrite (cut_sized b 1 Hb ltac:(lia)) in B. unfold sized at 1 in B. cbn [app] in B. apply cons_inv in B. destruct B as [B0 B].
    apply app_inj_len in B; [|lia]. destruct B as [B1 B2]. change (2 + len_at b 1)%nat with (S 1 + len_at b 1)%nat in *.
    rewrite (cut_sized b (S 1 + len_at b 1) Hb ltac:(lia)) in B2. unfold sized in B2. cbn [app] in B2. apply cons_inv in B2. destruct B2 as [B2 B3].
    rewrite (skipn_all2 (n := (S (S 1 + len_at b 1) + len_at b (S 1 + len_at b 1)))) in B3 by lia. rewrite app_nil_r in B3.
    rewrite wire_text in B1, B3. split; apply text_kept; (apply wire_bytes; exact Hb) || assumption.
  - (* 4D *) intros _ _. cbn [d4D_lang d4D_name d4D_text] in *. destruct F as ((F0 & F0') & F1 & F2).
    rewrite !app_length in Lb. unfold sized in Lb. cbn [length] in Lb.
    apply (fun e => eq_trans e (eq_sym (firstn_skipn 3 b))) in B. apply app_inj_len in B; [|rewrite F0', firstn_length; lia].
    destruct B as [B0 B]. split; [apply text_kept; [apply bytes_firstn; exact Hb|exact B0]|].
    rewrite (cut_sized b 3 Hb ltac:(lia)) in B. unfold sized at 1 in B. cbn [app] in B. apply cons_inv in B. destruct B as [B' B].
    apply app_inj_len in B; [|lia]. destruct B as [B1 B2]. change (4 + len_at b 3)%nat with (S 3 + len_at b 3)%nat in *.
    rewrite (cut_sized b (S 3 + len_at b 3) Hb ltac:(lia)) in B2. unfold sized in B2. cbn [app] in B2. apply cons_inv in B2. destruct B2 as [B2 B3].
    rewrite (skipn_all2 (n := (S (S 3 + len_at b 3) + len_at b (S 3 + len_at b 3)))) in B3 by lia. rewrite app_nil_r in B3.
    rewrite wire_text in B1, B3. split; apply text_kept; (apply wire_bytes; exact Hb) || assumption.
  - (* 4E *) intros _ _. cbn [d4E_num d4E_last d4E_lang d4E_items d4E_text] in *. destruct F as (F1 & F2 & (F3 & F3') & _ & F4). subst items.
    cbn [flat_map app length] in *.
    assert (Z : len_at b 4 = 0%nat). { inversion I; reflexivity. } rewrite Z in *. change (5 + 0)%nat with 5%nat in *.
    pose proof (layout_cut_at [4; 4]%nat 0 1 b Hb ltac:(lia) eq_refl) as C. cbn [cut Nat.mul Nat.add skipn] in C. rewrite C in B.
    apply (fun e => eq_trans e (eq_sym (firstn_skipn 1 b))) in B. apply app_inv_head in B.
    apply (fun e => eq_trans e (eq_sym (firstn_skipn 3 (skipn 1 b)))) in B.
    apply app_inj_len in B; [|rewrite F3', firstn_length, skipn_length; lia]. destruct B as [B0 B].
    split; [apply text_kept; [apply bytes_firstn, bytes_skipn; exact Hb|exact B0]|]. split; [reflexivity|].
    rewrite <- skipn_plus in B. change (1 + 3)%nat with 4%nat in B. rewrite (cut_sized b 4 Hb ltac:(lia)) in B. rewrite (wire_len b 4) in B by lia. rewrite Z in B.
    replace (wire_at b 4) with (@nil N) in B by (unfold wire_at; rewrite Z; reflexivity). cbn [app] in B. apply cons_inv in B. destruct B as [_ B]. change (5 + 0)%nat with 5%nat in B.
    rewrite (cut_sized b 5 Hb ltac:(lia)) in B. rewrite (skipn_all2 (n := (6 + len_at b 5))) in B by lia. rewrite app_nil_r in B.
    unfold sized in B. apply cons_inv in B. destruct B as [_ B]. rewrite wire_text in B. apply text_kept; [apply wire_bytes; exact Hb|exact B].
  - (* 58 *) intros _. change (Forall good58 (all_groups 13 b)) in G. assert (X : Forall (fun g => item_58 (read_58 g) = g) (all_groups 13 b)).
    { apply flat_map_back; [lia|exact Hb|exact L| |exact B]. rewrite Forall_map in F. eapply Forall_impl; [|exact F].
      cbv beta. intros g [F1 _]. apply item_58_len. exact F1. }
    destruct (all_groups_ok 13 b ltac:(lia) Hb L) as [_ A]. rewrite Forall_forall in *. intros g Hg. destruct (A g Hg). apply entry_58; auto.
  - (* 5A *) intros _. rewrite <- B. split; [apply (field_at0 _ 38 2 3); reflexivity|apply (field_at0 _ 56 32 0xFFFFFFFF); reflexivity].
  - (* 83 *) intros _. assert (X : Forall (fun g => item_83 (read_83 g) = g) (all_groups 4 b)).
    { apply flat_map_back; [lia|exact Hb|exact L| |exact B]. apply Forall_forall. intros g _. unfold item_83. rewrite layout_length; reflexivity. }
    destruct (all_groups_ok 4 b ltac:(lia) Hb L) as [_ A]. rewrite Forall_forall in *. intros g Hg. destruct (A g Hg). apply entry_83; auto.
  - (* other *) apply faithful_other. exact U.
Qed.
