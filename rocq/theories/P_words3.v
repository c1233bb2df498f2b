(** Tables made of the texts of a user. *)
From Verif Require Import Prelude Layout M_text S_text M_desc S_desc M_tables S_tables S_utils M_psi M_words S_words P_words P_words2.
From Verif Require P_desc P_tab4.
Notation item_exact := P_tab4.item_exact.

Lemma each_made {A B} (f : A -> res B) (P : A -> Prop) (Q : A -> B -> Prop) l : (forall x, P x -> exists y, f x = Ok y /\ Q x y) ->
  Forall P l -> exists ys, each f l = Ok ys /\ Forall2 Q l ys.
Proof.
  intros H. induction 1 as [|x l Hx _ (ys & E & F)]; [exists []; split; [reflexivity|constructor]|]. destruct (H x Hx) as (y & Ey & Qy).
  exists (y :: ys). cbn [each]. rewrite Ey. cbn [bind]. rewrite E. split; [reflexivity|]. constructor; assumption.
Qed.
Lemma each_seen {A B C} (f : B -> res C) (g : A -> C) (h : B -> B) (l : list A) (ys : list B) : Forall2 (fun x y => f (h y) = Ok (g x)) l ys -> each f (map h ys) = Ok (map g l).
Proof. induction 1 as [|x y l ys H _ IH]; [reflexivity|]. cbn [map each]. rewrite H. cbn [bind]. rewrite IH. reflexivity. Qed.
Lemma Forall2_right {A B} (P : B -> Prop) (Q : A -> B -> Prop) l ys : (forall x y, Q x y -> P y) -> Forall2 Q l ys -> Forall P ys.
Proof. intros H. induction 1; constructor; eauto. Qed.
Lemma bare_ok t : text_ok t -> text_ok (bare t).
Proof. intros [A B]. unfold bare. destruct (t_data t) eqn:E; [split; [reflexivity|constructor]|]. split; [exact A|]. rewrite E. exact B. Qed.
Lemma sized_len t : length (sized t) = S (length (text t)). Proof. reflexivity. Qed.

(** ** services *)
Definition service_fit (s : service) (i : sdt_item) : Prop :=
  sdt_item_ok (bare_service i) /\ item_exact sdti_descs (bare_service i) /\ (15 + length (sdt_entry (bare_service i)) <= N.to_nat 4098)%nat /\
  (v <- service_view (sdti_descs (bare_service i)) ;; Ok (sdti_pnr (bare_service i), v)) = Ok (service_seen s).
Lemma service_made m s : service_ok s -> exists i, service_item m s = Ok i /\ service_fit s i.
Proof.
  intros (H1 & H2 & [W1 S1] & [W2 S2] & L).
  destruct (label m _ _ W1) as (p & P1 & P2 & _ & P3 & _ & P4 & P5). destruct (label m _ _ W2) as (n & N1 & N2 & _ & N3 & _ & N4 & N5).
  unfold service_item. rewrite P1. cbn [bind]. rewrite N1. cbn [bind]. eexists. split; [reflexivity|]. unfold service_fit, bare_service, bares, sdt_item_ok, item_exact, sdt_entry.
  cbn [sdti_pnr sdti_sched sdti_pf sdti_status sdti_ca sdti_descs map bare_desc d48_type d48_provider d48_name].
  assert (B : length (body (D48 (mk48 (sv_type s) (bare p) (bare n)))) = (3 + length (text p) + length (text n))%nat).
  { cbn [body d48_type d48_provider d48_name]. rewrite !app_length, !sized_len, !bare_text, P_desc.layout_length by reflexivity. change (Facts.total_width [(8%nat, sv_type s)] / 8)%nat with 1%nat. lia. }
  assert (Wl : (length (wire [D48 (mk48 (sv_type s) (bare p) (bare n))]) = 5 + length (text p) + length (text n))%nat).
  { unfold wire, loop_of. cbn [map flat_map fst snd]. rewrite app_nil_r. unfold tlv. cbn [length]. rewrite B. lia. }
  assert (BL : (length (body (D48 (mk48 (sv_type s) (bare p) (bare n)))) < 256)%nat) by lia.
  assert (WL : (length (wire [D48 (mk48 (sv_type s) (bare p) (bare n))]) < N.to_nat 4096)%nat) by lia.
  split; [|split; [|split]].
  - do 5 (split; [first [assumption|reflexivity]|]). split; [|exact WL]. constructor; [|constructor]. split; [|split; [exact BL|exact I]].
    cbn [fields_ok d48_type d48_provider d48_name]. split; [exact H2|]. split; apply bare_ok; assumption.
  - constructor; [|constructor]. cbn [exact d48_provider d48_name]. split; [exact (P4 S1)|exact (N4 S2)].
  - rewrite app_length, P_desc.layout_length by reflexivity. match goal with |- context [(Facts.total_width ?l / 8)%nat] => let v := eval cbn in (Facts.total_width l / 8)%nat in change (Facts.total_width l / 8)%nat with v end. lia.
  - cbn [service_view d48_provider d48_name d48_type]. rewrite !bare_string, P3. cbn [bind]. rewrite N3. reflexivity.
Qed.

(** ** events *)
Lemma extended_fit cp lang lt last : text_ok lang -> length (text lang) = 3%nat -> reread (bare lang) -> dvb_to_string lang = Ok lt -> last < 16 ->
  forall l n ls, Forall (piece_ok cp) l -> n + N.of_nat (length l) <= 16 -> each dvb_to_string l = Ok ls ->
  let ds := bares (extended lang last n l) in
  Forall desc_ok ds /\ Forall exact ds /\ length (wire ds) = (8 * length l + load l)%nat /\ long_view ds = Ok (concat ls).
Proof.
  intros T1 T2 T3 T4 Hl l. unfold bares. induction l as [|t l IH]; intros n ls F Hn E; cbn [each extended map] in *.
  - injection E as <-. cbv zeta. split; [constructor|]. split; [constructor|]. split; reflexivity.
  - inversion F as [|? ? (F1 & F2 & F3) F4]; subst. destruct (dvb_to_string t) as [x| |] eqn:Et; cbn [bind] in E; try discriminate.
    destruct (each dvb_to_string l) as [xs| |]; cbn [bind] in E; try discriminate. injection E as <-. cbn [length] in Hn.
    destruct (IH (n + 1) xs F4 ltac:(lia) eq_refl) as (I1 & I2 & I3 & I4). cbv zeta. cbn [bare_desc d4E_num d4E_last d4E_lang d4E_items d4E_text].
    assert (B : length (body (D4E (mk4E n last (bare lang) [] (bare t)))) = (6 + length (text t))%nat).
    { cbn [body d4E_num d4E_last d4E_lang d4E_items d4E_text flat_map]. rewrite !app_length, sized_len, !bare_text, P_desc.layout_length by reflexivity. rewrite T2. change (Facts.total_width [(4%nat, n); (4%nat, last)] / 8)%nat with 1%nat. cbn [length]. lia. }
    split; [|split; [|split]].
    + constructor; [|exact I1]. split; [|split; [lia|reflexivity]]. cbn [fields_ok d4E_num d4E_last d4E_lang d4E_items d4E_text].
      change (2 ^ 4) with 16. split; [lia|]. split; [exact Hl|]. split; [split; [apply bare_ok; exact T1|rewrite bare_text; exact T2]|]. split; [constructor|]. apply bare_ok. exact F1.
    + constructor; [|exact I2]. split; [exact T3|exact F2].
    + unfold wire, loop_of in *. cbn [map flat_map fst snd]. rewrite app_length, I3. unfold tlv. cbn [length]. rewrite B. unfold load. cbn [map concat length]. rewrite app_length. lia.
    + cbn [long_view d4E_text]. rewrite bare_string, Et. cbn [bind]. rewrite I4. reflexivity.
Qed.
Lemma lang_label s : length s = 3%nat -> Forall (fun c => 0x20 <= c < 0x80) s -> label_ok 0 s /\ wire_weight 0 s = 3%nat.
Proof.
  intros L F. split; [split|].
  - left. eexists. split; [cbn; left; reflexivity|]. eapply Forall_impl; [|exact F]. intros c Hc. left. cbv beta in Hc. lia.
  - intros _ Hn. destruct F as [|c s Hc _]; [congruence|]. cbn [hd]. lia.
  - destruct s; [discriminate|]. exact L.
Qed.
Definition event_fit (e : event) (i : eit_item) : Prop :=
  eit_item_ok (bare_event i) /\ item_exact eiti_descs (bare_event i) /\ (18 + length (eit_entry (bare_event i)) <= N.to_nat 4098)%nat /\
  event_view (bare_event i) = Ok (event_seen e).
Lemma short_extended lang last l : forall n, short_view (bares (extended lang last n l)) = Ok None.
Proof. induction l as [|t l IH]; intros n; [reflexivity|]. exact (IH (n + 1)). Qed.
Lemma event_made m e : event_ok e -> exists i, event_item m e = Ok i /\ event_fit e i.
Proof.
  intros (H1 & H2 & H3 & La & Lb & [W1 S1] & [W2 S2] & Lt & Lg).
  destruct (lang_label _ La Lb) as [[W0 S0] L0].
  destruct (label m _ _ W0) as (l & E1 & E2 & _ & E3 & _ & E4 & E5).
  destruct (label m _ _ W1) as (t & P1 & P2 & _ & P3 & _ & P4 & P5). destruct (label m _ _ W2) as (n & N1 & N2 & _ & N3 & _ & N4 & N5).
  destruct (pieces m _ _ Lg) as (x & ps & ls & X1 & X2 & X3 & X4 & X5 & X6 & X7). rewrite L0 in E5.
  destruct (extended_fit (ev_cp e) l (ev_lang e) (N.of_nat (length ps - 1)) E2 E5 (E4 S0) E3 ltac:(lia) ps 0 ls X4 ltac:(lia) X5) as (D1 & D2 & D3 & D4).
  unfold event_item. rewrite E1. cbn [bind]. rewrite P1. cbn [bind]. rewrite N1. cbn [bind]. rewrite X1. cbn [bind]. rewrite X2. cbn [bind]. eexists. split; [reflexivity|].
  unfold event_fit, bare_event, bares, eit_item_ok, item_exact, eit_entry, event_view.
  cbn [eiti_id eiti_start eiti_duration eiti_status eiti_ca eiti_descs map bare_desc d4D_lang d4D_name d4D_text].
  fold (bares (extended l (N.of_nat (length ps - 1)) 0 ps)). set (ds := bares (extended l (N.of_nat (length ps - 1)) 0 ps)) in *.
  assert (B : length (body (D4D (mk4D (bare l) (bare t) (bare n)))) = (5 + length (text t) + length (text n))%nat).
  { cbn [body d4D_lang d4D_name d4D_text]. rewrite !app_length, !sized_len, !bare_text, E5. lia. }
  assert (Wl : (length (wire (D4D (mk4D (bare l) (bare t) (bare n)) :: ds)) = 7 + length (text t) + length (text n) + length (wire ds))%nat).
  { unfold wire, loop_of. cbn [map flat_map fst snd]. rewrite app_length. unfold tlv. cbn [length]. rewrite B. lia. }
  assert (BL : (length (body (D4D (mk4D (bare l) (bare t) (bare n)))) < 256)%nat) by lia.
  assert (WL : (length (wire (D4D (mk4D (bare l) (bare t) (bare n)) :: ds)) < N.to_nat 4050)%nat) by lia.
  split; [|split; [|split]].
  - do 5 (split; [first [assumption|reflexivity]|]). split; [|lia]. constructor; [|exact D1]. split; [|split; [exact BL|exact I]].
    cbn [fields_ok d4D_lang d4D_name d4D_text]. split; [split; [apply bare_ok; exact E2|rewrite bare_text; exact E5]|]. split; apply bare_ok; assumption.
  - constructor; [|exact D2]. cbn [exact d4D_lang d4D_name d4D_text]. split; [exact (E4 S0)|]. split; [exact (P4 S1)|exact (N4 S2)].
  - rewrite app_length, P_desc.layout_length by reflexivity. match goal with |- context [(Facts.total_width ?l / 8)%nat] => let v := eval cbn in (Facts.total_width l / 8)%nat in change (Facts.total_width l / 8)%nat with v end. lia.
  - cbn [short_view long_view d4D_lang d4D_name d4D_text]. rewrite !bare_string, E3. cbn [bind]. rewrite P3. cbn [bind]. rewrite N3. cbn [bind]. rewrite D4. cbn [bind]. rewrite X6. reflexivity.
Qed.
