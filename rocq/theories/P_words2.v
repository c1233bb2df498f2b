(** Texts of a user: what they become, and their pieces. *)
From Verif Require Import Prelude Layout M_text S_text M_desc S_desc M_tables S_tables S_utils M_psi M_words S_words P_text P_text2 P_text3 P_words.
From Verif Require Props_text.

Lemma page_label m cp page s : In (cp, page) pages -> Forall (representable page) s ->
  exists data, dvb_from_str m s cp = Ok (mkDvb cp data) /\ Forall2 (fun c b => b < 256 /\ shown page b = [c] /\ (0x20 <= c -> 0x20 <= b)) s data.
Proof.
  intros Hp H. destruct (from_str_page m s cp page Hp) as (chunks & E & F). exists (concat chunks). split; [exact E|]. clear E.
  induction F as [|c x s chunks Hx _ IH]; [constructor|]. inversion H as [|? ? Hc Hs]; subst. cbn [concat].
  pose proof (representable_small cp page c Hp Hc) as Hsm. rewrite N.mod_small in Hx by lia.
  pose proof (shown_encoded cp page c x Hp Hc Hx) as Sh. pose proof (encoded_bytes page c x Hx) as B.
  inversion Hx as [L Ex|L Ex|b L Hb Ex|L Hn Ex]; subst x.
  - cbn [app]. constructor; [|apply IH; exact Hs]. split; [lia|]. split; [cbn [flat_map] in Sh; rewrite app_nil_r in Sh; exact Sh|lia].
  - cbn in Sh. discriminate.
  - cbn [app]. constructor; [|apply IH; exact Hs]. destruct Hb as [Hb Hb']. split; [lia|]. split; [cbn [flat_map] in Sh; rewrite app_nil_r in Sh; exact Sh|lia].
  - exfalso. destruct Hc as [Hc|[b Hb]]; [lia|]. exact (Hn b Hb).
Qed.
Lemma page_cp cp page : In (cp, page) pages -> cp < 16 /\ cp <> 21.
Proof. cbn. intros H. repeat (destruct H as [H|H]; [injection H as <- _; lia|]). contradiction. Qed.
Lemma shown_all page s data : Forall2 (fun c b => b < 256 /\ shown page b = [c] /\ (0x20 <= c -> 0x20 <= b)) s data ->
  flat_map (shown page) data = s /\ bytes data /\ length data = length s.
Proof.
  induction 1 as [|c b s data (H1 & H2 & _) _ (IH1 & IH2 & IH3)]; [repeat split; constructor|]. cbn [flat_map length]. rewrite H2, IH1, IH3.
  repeat split. constructor; assumption.
Qed.
Lemma label m cp s : writable cp s -> exists t, dvb_from_str m s cp = Ok t /\ text_ok t /\ t_cp t = cp /\ dvb_to_string t = Ok s /\
  length (t_data t) = weight cp s /\ (plain_start cp s -> reread (bare t)) /\ length (text t) = wire_weight cp s.
Proof.
  intros [(page & Hp & H)|[-> H]].
  - destruct (page_label m cp page s Hp H) as (data & E & F). destruct (page_cp cp page Hp) as [C1 C2].
    destruct (shown_all page s data F) as (F1 & F2 & F3). exists (mkDvb cp data). split; [exact E|]. split; [split; [cbn; lia|exact F2]|]. split; [reflexivity|].
    split; [unfold dvb_to_string; rewrite (display_page cp page data Hp F2); cbn [bind]; rewrite F1; reflexivity|].
    unfold weight. destruct (N.eqb_spec cp 21); [lia|]. split; [exact F3|]. split.
    + clear F1 F2 F3 H E. intros P. unfold bare, reread. cbn [t_data t_cp]. destruct data as [|b d]; [left; auto|]. right. cbn [t_data t_cp]. split; [discriminate|].
      inversion F as [|c ? s' ? (G1 & G2 & G3) _]; subst. assert (cp = 0 \/ 1 <= cp) as [->|C] by lia; [|right; left; lia]. left. split; [reflexivity|].
      cbn [hd]. apply G3. apply P; [reflexivity|discriminate].
    + unfold text, wire_weight, weight. cbn [t_data t_cp]. destruct (N.eqb_spec cp 21); [lia|].
      destruct data as [|b d]; destruct s as [|c s]; try discriminate F3; [reflexivity|]. rewrite app_length. rewrite F3. reflexivity.
  - exists (mkDvb 21 (utf8 s)). split; [reflexivity|]. assert (B : bytes (utf8 s)) by (apply P_text3.utf8_bytes; exact H).
    split; [split; [reflexivity|exact B]|]. split; [reflexivity|].
    assert (D : dvb_to_string (mkDvb 21 (utf8 s)) = Ok s).
    { destruct (utf8_round m s H) as (t & E1 & _ & E2). injection E1 as <-. unfold dvb_to_string. change UTF8 with 21 in E2. rewrite E2. reflexivity. }
    split; [exact D|]. split; [reflexivity|]. split.
    + intros _. unfold bare, reread. cbn [t_data]. destruct (utf8 s) as [|b d]; [left; auto|]. right. cbn [t_data t_cp]. split; [discriminate|]. right. right. reflexivity.
    + unfold text, wire_weight, weight. cbn [t_data t_cp]. change (21 =? 21) with true. cbv iota. destruct s as [|c s]; [reflexivity|].
      destruct (utf8 (c :: s)) as [|b d] eqn:Eu; [|rewrite app_length; reflexivity]. exfalso. unfold dvb_to_string, dvb_display in D. cbn in D. discriminate.
Qed.

(** ** the pieces of a long text *)
Lemma each_app {A B} (f : A -> res B) l r x y : each f l = Ok x -> each f r = Ok y -> each f (l ++ r) = Ok (x ++ y).
Proof.
  revert x. induction l as [|a l IH]; intros x E F; cbn [each app] in *; [injection E as <-; exact F|]. destruct (f a); cbn [bind] in *; try discriminate.
  destruct (each f l) as [z| |]; cbn [bind] in E; try discriminate. injection E as <-. rewrite (IH z eq_refl F). reflexivity.
Qed.
Definition piece_ok (cp : N) (p : dvb) : Prop := text_ok p /\ reread (bare p) /\ (length (text p) <= 249)%nat.
Definition load (l : list dvb) : nat := length (concat (map text l)).
Lemma load_le cp l : Forall (fun p => t_cp p = cp) l -> (load l <= length (concat (map t_data l)) + length (selector cp) * length l)%nat.
Proof.
  unfold load. induction 1 as [|p l H _ IH]; [cbn; lia|]. cbn [map concat length]. rewrite !app_length. unfold text at 1. rewrite H.
  rewrite Nat.mul_succ_r. destruct (t_data p); cbn [length] in *; rewrite ?app_length; cbn [length]; lia.
Qed.
Lemma selector_le cp : (length (selector cp) <= 3)%nat.
Proof. unfold selector. destruct (cp =? 0); [cbn; lia|]. destruct (cp <=? 4); [cbn; lia|]. destruct (cp <=? 15); cbn; lia. Qed.
Lemma count_le (l : list dvb) : Forall (fun p => (246 <= length (t_data p))%nat) (removelast l) -> (246 * (length l - 1) <= length (concat (map t_data l)))%nat.
Proof.
  induction l as [|p l IH]; intros H; [cbn; lia|]. destruct l as [|q l]; [cbn [length]; lia|]. change (removelast (p :: q :: l)) with (p :: removelast (q :: l)) in H.
  inversion H as [|? ? H1 H2]; subst. specialize (IH H2). cbn [map concat] in *. rewrite app_length. cbn [length] in *. lia.
Qed.
Lemma size_text p : t_cp p < 256 -> N.of_nat (dvb_size p) <= 249 -> (length (text p) <= 249)%nat.
Proof. intros _ H. rewrite P_text2.dvb_size_spec in H. unfold text. destruct (t_data p); [cbn; lia|]. lia. Qed.

Lemma pieces m cp s : long_ok cp s -> exists t l ls, dvb_from_str m s cp = Ok t /\ dvb_split (S (length (t_data t))) m t 249 = Ok l /\
  (1 <= length l <= 15)%nat /\ Forall (piece_ok cp) l /\ each dvb_to_string l = Ok ls /\ concat ls = s /\ (load l <= N.to_nat 3600 + 3 * length l)%nat.
Proof.
  intros (W & C0 & C21 & L). destruct (label m cp s W) as (t & E & [T1 T2] & Tc & D & Wt & R & _). exists t.
  destruct (t_data t) as [|b0 d0] eqn:Ed.
  { exists [t], [s]. split; [exact E|]. split; [apply Props_text.C24_split_empty; [exact Ed|lia]|]. split; [cbn; lia|].
    split; [constructor; [|constructor]; split; [split; [exact T1|rewrite Ed; constructor]|]; split; [unfold bare; rewrite Ed; left; auto|unfold text; rewrite Ed; cbn; lia]|].
    split; [cbn [each]; rewrite D; reflexivity|]. split; [apply app_nil_r|]. unfold load. cbn [map concat length]. unfold text. rewrite Ed. cbn. lia. }
  rewrite <- Ed in *. assert (Dn : t_data t <> []) by (rewrite Ed; discriminate).
  destruct (Props_text.C24_split (S (length (t_data t))) m t 249 T1 T2 Dn) as (l & Sp & Sc & Sf & Sr).
  { rewrite Wt. change (2 ^ 63) with 9223372036854775808. lia. }
  { reflexivity. }
  { unfold reserved. destruct (t_cp t =? 0); [destruct (t_cp t =? 21); lia|]. destruct (t_cp t =? 21); lia. }
  { lia. }
  assert (Cn : (246 * (length l - 1) <= length (concat (map t_data l)))%nat).
  { apply count_le. eapply Forall_impl; [|exact Sr]. intros p Hp. cbv beta in Hp. unfold reserved in Hp. destruct (N.eqb_spec (t_cp t) 0) as [Z0|Z0]; destruct (N.eqb_spec (t_cp t) 21); lia. }
  rewrite Sc, Wt in Cn.
  assert (Ln : l <> []) by (intros ->; cbn in Sc; congruence).
  assert (Len : (1 <= length l <= 15)%nat) by (destruct l; [congruence|]; cbn [length] in *; lia).
  assert (Ld : (load l <= N.to_nat 3600 + 3 * length l)%nat).
  { pose proof (load_le cp l) as Q. pose proof (selector_le cp). rewrite Sc, Wt in Q. specialize (Q ltac:(eapply Forall_impl; [|exact Sf]; intros p (A & _); congruence)). nia. }
  assert (Bs : Forall (fun p => bytes (t_data p)) l).
  { clear - Sc T2. rewrite <- Sc in T2. clear Sc. induction l as [|p l IH]; [constructor|]. cbn [map concat] in T2. apply Forall_app in T2 as [A B]. constructor; [exact A|apply IH; exact B]. }
  destruct W as [(page & Hp & H)|[-> H]].
  - destruct (page_label m cp page s Hp H) as (data & E' & F). rewrite E in E'. injection E' as ->. cbn [t_data t_cp] in *.
    destruct (page_cp cp page Hp) as [P1 P2]. destruct (shown_all page s data F) as (F1 & F2 & F3).
    exists l, (map (fun p => flat_map (shown page) (t_data p)) l). split; [exact E|]. split; [exact Sp|]. split; [exact Len|].
    assert (Hs : cp = 0 -> Forall (fun b => 0x20 <= b) data).
    { intros Z. specialize (C0 Z). clear - F C0. induction F as [|c b s d (_ & _ & G) _ IH]; [constructor|]. inversion C0; subst. constructor; [apply G; assumption|apply IH; assumption]. }
    split; [|split; [|split; [|exact Ld]]].
    + rewrite <- Sc in Hs. assert (Hl : cp = 0 -> Forall (fun p => Forall (fun b => 0x20 <= b) (t_data p)) l).
      { intros Z. specialize (Hs Z). clear - Hs. induction l as [|p l IH]; [constructor|]. cbn [map concat] in Hs. apply Forall_app in Hs as [A B]. constructor; [exact A|apply IH; exact B]. }
      rewrite Forall_forall in *. intros p Hi. destruct (Sf p Hi) as (S1 & S2 & S3). split; [split; [lia|apply Bs; exact Hi]|]. split; [|apply size_text; [lia|exact S3]].
      unfold bare, reread. destruct (t_data p) as [|b d] eqn:Ep; [congruence|]. right. split; [rewrite Ep; discriminate|]. rewrite S1.
      assert (cp = 0 \/ 1 <= cp) as [Z|Z] by lia; [|right; left; lia]. left. split; [exact Z|]. specialize (Hl Z p Hi). rewrite Ep in *. inversion Hl; subst. assumption.
    + assert (Q : Forall (fun p => t_cp p = cp /\ bytes (t_data p)) l) by (rewrite Forall_forall in *; intros p Hi; split; [apply (Sf p Hi)|apply Bs; exact Hi]).
      clear - Q Hp. induction Q as [|[c d] l [A B] _ IH]; [reflexivity|]. cbn [each map t_cp t_data] in *. subst c. unfold dvb_to_string at 1. rewrite (display_page cp page d Hp B). cbn [bind]. rewrite IH. reflexivity.
    + rewrite <- F1, <- Sc. clear. induction l as [|p l IH]; [reflexivity|]. cbn [map concat]. rewrite flat_map_app, IH. reflexivity.
  - injection E as <-. cbn [t_data t_cp] in *. change UTF8 with 21 in *.
    assert (Sn : s <> []) by (intros ->; cbn in Dn; congruence). specialize (C21 eq_refl).
    destruct (Props_text.C24_utf8_whole (S (length (utf8 s))) m s 249 H C21 Sn) as (chunks & Cu & Cc).
    { change (weight 21 s) with (length (utf8 s)) in L. change (2 ^ 63) with 9223372036854775808. lia. }
    { reflexivity. }
    { lia. }
    { lia. }
    rewrite Sp in Cu. injection Cu as Cu. exists l, chunks. split; [reflexivity|]. split; [exact Sp|]. split; [exact Len|]. split; [|split; [|split; [exact Cc|exact Ld]]].
    + rewrite Forall_forall in *. intros p Hi. destruct (Sf p Hi) as (S1 & S2 & S3). split; [split; [lia|apply Bs; exact Hi]|]. split; [|apply size_text; [lia|exact S3]].
      unfold bare, reread. destruct (t_data p) as [|b d] eqn:Ep; [congruence|]. right. split; [rewrite Ep; discriminate|]. right. right. exact S1.
    + rewrite Cu. rewrite <- Cc in H. clear - H. induction chunks as [|c chunks IH]; [reflexivity|]. cbn [concat] in H. apply Forall_app in H as [A B]. cbn [map each].
      destruct (utf8_round Debug c A) as (t & E1 & _ & E2). injection E1 as <-. unfold dvb_to_string at 1. change UTF8 with 21 in E2. rewrite E2. cbn [bind]. rewrite (IH B). reflexivity.
Qed.
