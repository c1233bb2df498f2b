(** Descriptors: the round trip condition is necessary; sizes. *)
From Verif Require Import Prelude Layout Facts Facts2 S_utils S_text M_bytes M_utils M_text M_desc S_desc P_bytes P_utils P_text2 P_desc P_desc2 P_desc3 W_desc.

Lemma text_back_iff t : text_ok t -> text_read (text t) = t -> reread t.
Proof.
  intros [H _] R. apply (reread_iff Debug t H). exists (text t). split; [rewrite assemble_text by assumption; reflexivity|].
  rewrite from_text. congruence.
Qed.
Lemma map_id_inv {A B} (f : A -> B) (g : B -> A) l : map g (map f l) = l -> Forall (fun x => g (f x) = x) l.
Proof. induction l as [|x l IH]; cbn [map]; intros H; [constructor|]. injection H as H1 H2. constructor; auto. Qed.

Lemma hm_hours i : ok_58i i -> good58 (item_58 i) -> d58_offset i < 300 /\ d58_next i < 300.
Proof.
  intros (Hc & H1 & H2 & H3 & H4 & H5) (_ & G1 & _ & _ & _ & G2). pose proof (item_58_len i Hc) as L. destruct Hc as [_ Hl].
  unfold item_58 in *.
  set (fs := [(6%nat, d58_region i); (1%nat, 1); (1%nat, d58_pol i);
          (16%nat, hm (d58_offset i / 60) (d58_offset i mod 60));
          (16%nat, MJD_EPOCH + d58_time i / 86400);
          (24%nat, hms (d58_time i / 3600 mod 24) (d58_time i / 60 mod 60) (d58_time i mod 60));
          (16%nat, hm (d58_next i / 60) (d58_next i mod 60))]) in *.
  destruct (minutes_hm (d58_offset i / 60) (d58_offset i mod 60)) as (_ & _ & A3); [dlia|dlia|].
  destruct (minutes_hm (d58_next i / 60) (d58_next i mod 60)) as (_ & _ & B3); [dlia|dlia|].
  assert (F2 : field (text (d58_code i) ++ layout fs) 32 16 = hm (d58_offset i / 60) (d58_offset i mod 60))
    by (apply (field_behind _ fs 3 8 16); (assumption || reflexivity || apply hm_lt)).
  assert (F5 : field (text (d58_code i) ++ layout fs) 88 16 = hm (d58_next i / 60) (d58_next i mod 60))
    by (apply (field_behind _ fs 3 64 16); (assumption || reflexivity || apply hm_lt)).
  rewrite (field_high _ 32 8 8) in G1 by (rewrite L; lia). rewrite (field_high _ 88 8 8) in G2 by (rewrite L; lia).
  change (8 + 8)%nat with 16%nat in *. change (2 ^ N.of_nat 8) with 256 in *. rewrite F2, A3 in G1. rewrite F5, B3 in G2. split; dlia.
Qed.

Lemma inv_0A b items : reads b 10 (D0A items) -> map read_0A (all_groups 4 b) = items.
Proof. intros R. inversion R. reflexivity. Qed.
Lemma inv_43 b d : reads b 67 (D43 d) -> exists f o, d43_freq d = 10 * f /\ d43_orbital d = 6 * o.
Proof. intros R. inversion R. cbn. eauto. Qed.
Lemma inv_44 b d : reads b 68 (D44 d) -> exists f, d44_freq d = 100 * f.
Proof. intros R. inversion R. cbn. eauto. Qed.
Lemma inv_5A b d : reads b 90 (D5A d) -> exists f, d5A_freq d = 10 * f.
Proof. intros R. inversion R. cbn. eauto. Qed.
Lemma inv_48 b d : reads b 72 (D48 d) -> text_at b 1 = d48_provider d /\ text_at b (2 + len_at b 1) = d48_name d.
Proof. intros R. inversion R. cbn. auto. Qed.
Lemma inv_4D b d : reads b 77 (D4D d) -> text_read (firstn 3 b) = d4D_lang d /\ text_at b 3 = d4D_name d /\ text_at b (4 + len_at b 3) = d4D_text d.
Proof. intros R. inversion R. cbn. auto. Qed.
Lemma inv_4E b d : reads b 78 (D4E d) -> text_read (firstn 3 (skipn 1 b)) = d4E_lang d /\ text_at b (5 + len_at b 4) = d4E_text d.
Proof. intros R. inversion R. cbn [d4E_lang d4E_text]. auto. Qed.
Lemma inv_58 b items : reads b 88 (D58 items) -> Forall good58 (all_groups 13 b) /\ map read_58 (all_groups 13 b) = items.
Proof. intros R. inversion R. auto. Qed.
Lemma mul_mod0 k f : k <> 0 -> (k * f) mod k = 0.
Proof. intros H. rewrite N.mul_comm. apply N.mod_mul. assumption. Qed.

Lemma exact_needed d : desc_ok d -> reads (body d) (desc_tag d) d -> exact d.
Proof.
  intros (F & Hl & NI) R. destruct d as [d|items|d|t|items|d|d|d|d|d|t|items|d|items|d]; cbn [body desc_tag fields_ok exact no_items] in *; try exact I.
  - (* 0A *) assert (F' : Forall (fun i => length (item_0A i) = 4%nat) items).
    { eapply Forall_impl; [|exact F]. intros i [H _]. apply item_0A_len; assumption. }
    destruct (flat_groups item_0A 4 items ltac:(lia) F') as [L G].
    apply inv_0A in R as E. rewrite G in E. apply map_id_inv in E. rewrite Forall_forall in *. intros i Hi. specialize (F i Hi). specialize (E i Hi).
    destruct F as [[Ft Fl] Fr]. apply (f_equal d0A_code) in E. cbn [read_0A d0A_code] in E. unfold item_0A in E.
    rewrite firstn_len_app in E by assumption. apply text_back_iff; assumption.
  - (* 40 *) inversion R; subst. apply text_back_iff; congruence.
  - (* 43 *) apply inv_43 in R. destruct R as (f & o & -> & ->). split; apply mul_mod0; lia.
  - (* 44 *) apply inv_44 in R. destruct R as (f & ->). apply mul_mod0; lia.
  - (* 48 *) destruct F as (F1 & F2 & F3).
    assert (L1 : (length (text (d48_provider d)) < 256)%nat /\ (length (text (d48_name d)) < 256)%nat).
    { rewrite !app_length in Hl. unfold sized in Hl. cbn [length] in Hl. lia. } destruct L1 as [L1 L2].
    destruct (two_sized (layout [(8%nat, d48_type d)]) (d48_provider d) (d48_name d) 1) as (B1 & B2 & B3 & B4 & B5); [reflexivity|assumption|assumption|].
    apply inv_48 in R. destruct R as [EP EN].
    change (2 + ?n)%nat with (S 1 + n)%nat in EN. rewrite B2 in EP. rewrite B4 in EN. split; apply text_back_iff; assumption.
  - (* 4D *) destruct F as ((F1 & F1') & F2 & F3).
    assert (L1 : (length (text (d4D_name d)) < 256)%nat /\ (length (text (d4D_text d)) < 256)%nat).
    { rewrite !app_length in Hl. unfold sized in Hl. cbn [length] in Hl. lia. } destruct L1 as [L1 L2].
    destruct (two_sized (text (d4D_lang d)) (d4D_name d) (d4D_text d) 3) as (B1 & B2 & B3 & B4 & B5); [assumption|assumption|assumption|].
    apply inv_4D in R. destruct R as (EL & EP & EN).
    change (4 + ?n)%nat with (S 3 + n)%nat in EN. rewrite B2 in EP. rewrite B4 in EN. rewrite firstn_len_app in EL by assumption.
    repeat split; apply text_back_iff; assumption.
  - (* 4E *) destruct F as (F1 & F2 & (F3 & F3') & _ & F4).
    apply inv_4E in R. destruct R as [EL EN].
    rewrite NI in *. cbn [flat_map app] in *.
    set (h := layout [(4%nat, d4E_num d); (4%nat, d4E_last d)]) in *.
    assert (L1 : (length (text (d4E_text d)) < 256)%nat).
    { rewrite !app_length in Hl. cbn [length] in Hl. unfold sized in Hl. cbn [length] in Hl. lia. }
    set (b := h ++ text (d4E_lang d) ++ N.of_nat (length (@nil N)) :: sized (d4E_text d)) in *.
    assert (Lh : length h = 1%nat) by reflexivity.
    assert (B : b = (h ++ text (d4E_lang d)) ++ 0 :: sized (d4E_text d)) by (unfold b; rewrite app_assoc; reflexivity).
    assert (X1 : len_at b 4 = 0%nat). { unfold len_at. rewrite B, nth_len_app; [reflexivity|]. rewrite app_length. lia. }
    destruct (sized_at (h ++ text (d4E_lang d) ++ [0]) (d4E_text d) [] 5) as [X2 X3]; [rewrite !app_length; cbn [length]; lia|assumption|].
    replace ((h ++ text (d4E_lang d) ++ [0]) ++ sized (d4E_text d) ++ []) with b in X2, X3.
    2:{ rewrite app_nil_r, B, <- !app_assoc. reflexivity. }
    rewrite X1 in EN. change (5 + 0)%nat with 5%nat in EN. rewrite X3 in EN.
    unfold b in EL. rewrite skipn_len_app in EL by assumption. rewrite firstn_len_app in EL by assumption.
    split; apply text_back_iff; assumption.
  - (* 58 *) assert (F' : Forall (fun i => length (item_58 i) = 13%nat) items).
    { eapply Forall_impl; [|exact F]. intros i [H _]. apply item_58_len; assumption. }
    destruct (flat_groups item_58 13 items ltac:(lia) F') as [L G].
    apply inv_58 in R. destruct R as [Hg E]. rewrite G in E, Hg. apply map_id_inv in E.
    change (Forall good58 (map item_58 items)) in Hg. rewrite Forall_map in Hg. rewrite Forall_forall in *. intros i Hi.
    specialize (F i Hi). specialize (E i Hi). specialize (Hg i Hi). cbn beta in Hg.
    split; [|apply hm_hours; assumption]. destruct F as ([Ft Fl] & _).
    apply (f_equal d58_code) in E. cbn [read_58 d58_code] in E. unfold item_58 in E.
    rewrite firstn_len_app in E by assumption. apply text_back_iff; assumption.
  - (* 5A *) apply inv_5A in R. destruct R as (f & ->). apply mul_mod0; lia.
  - apply reads_raw in R. exact (proj2 R).
Qed.

Lemma items_len items : length (flat_map item_4E items) = (size_4E_items items + 2 * length items)%nat.
Proof.
  induction items as [|[x y] r IH]; [reflexivity|]. cbn [flat_map size_4E_items length]. rewrite app_length, IH, !text_size.
  unfold item_4E, sized. cbn [fst snd]. rewrite app_length. cbn [length]. lia.
Qed.
