(** Proofs for C73. *)
From Coq Require Import String.
From Verif Require Import Prelude Layout S_textdata S_text M_text M_desc S_desc S_forward M_psi M_tables M_show S_show.
From Verif Require P_text P_text2 P_forward P_forward2.

Definition shows {A} (show : A -> res tree) (texts : A -> list dvb) : Prop :=
  forall x, Forall byte_text (texts x) ->
    (Forall printable (texts x) /\ exists v, show x = Ok v) \/ (~ Forall printable (texts x) /\ show x = Panic).
Definition tells {A} (show : A -> res tree) (texts : A -> list dvb) (mp : A -> A) : Prop :=
  forall x y v, Forall byte_text (texts x) -> Forall byte_text (texts y) -> show x = Ok v -> show y = Ok v -> mp x = mp y.

Lemma page_of_same cp : page_of cp = P_text.page_of cp.
Proof. unfold page_of, P_text.page_of. destruct (find _ pages) as [[c p]|]; reflexivity. Qed.
Lemma known_dec cp : known_page cp \/ ~ known_page cp.
Proof.
  unfold known_page. destruct (N.eqb_spec cp 21) as [->|H]; [left; left; reflexivity|].
  destruct (P_text.page_of cp) as [p|] eqn:E.
  - left. right. apply P_text.page_in in E. apply (in_map fst) in E. exact E.
  - right. apply P_text.page_not_in in E. tauto.
Qed.

Lemma to_string_chars t : byte_text t -> printable t -> dvb_to_string t = Ok (chars t).
Proof.
  destruct t as [cp data]. unfold byte_text, printable. cbn [t_data t_cp]. intros Hb Hp. unfold dvb_to_string, chars. cbn [t_cp t_data].
  destruct data as [|b d].
  - unfold dvb_display. cbn. destruct (cp =? 21); [reflexivity|]. destruct (page_of cp); reflexivity.
  - destruct Hp as [Hp|Hp]; [discriminate|]. destruct (N.eqb_spec cp 21) as [->|Hn].
    + reflexivity.
    + destruct Hp as [Hp|Hp]; [contradiction|]. apply in_map_iff in Hp as [[c p] [E Hp]]. cbn in E. subst c.
      rewrite (P_text.display_page cp p (b :: d) Hp Hb). cbn [bind]. apply P_text.page_in in Hp.
      rewrite page_of_same, Hp. reflexivity.
Qed.
Lemma dvb_shows : shows dvb_show (fun t => [t]).
Proof.
  intros t Hb. inversion Hb as [|? ? Ht _]; subst. destruct (known_dec (t_cp t)) as [K|K].
  - left. assert (P : printable t) by (right; exact K). split; [constructor; [exact P|constructor]|].
    unfold dvb_show. rewrite (to_string_chars t Ht P). cbn [bind]. eexists. reflexivity.
  - destruct (t_data t) as [|b d] eqn:E.
    + left. assert (P : printable t) by (left; exact E). split; [constructor; [exact P|constructor]|].
      unfold dvb_show. rewrite (to_string_chars t Ht P). cbn [bind]. eexists. reflexivity.
    + right. split.
      * intros F. inversion F as [|? ? P _]; subst. destruct P as [P|P]; [congruence|contradiction].
      * unfold dvb_show, dvb_to_string. assert (D : dvb_display t = Ok None).
        { apply P_text2.display_error; [exact Ht|]. rewrite E. split; [discriminate|]. unfold known_page in K. tauto. }
        rewrite D. reflexivity.
Qed.
Lemma dvb_shown t v : byte_text t -> dvb_show t = Ok v -> v = SStruct "StringDVB" [("codepage", SNum (t_cp t)); ("text", SText (chars t))]%string.
Proof.
  intros Ht H. destruct (dvb_shows t (Forall_cons _ Ht (Forall_nil _))) as [[P _]|[_ E]]; [|congruence].
  inversion P as [|? ? P' _]; subst. unfold dvb_show in H. rewrite (to_string_chars t Ht P') in H. cbn [bind] in H. congruence.
Qed.
Lemma dvb_tells : tells dvb_show (fun t => [t]) seen.
Proof.
  intros x y v Hx Hy Ex Ey. inversion Hx; inversion Hy; subst. apply dvb_shown in Ex, Ey; try assumption. unfold seen.
  rewrite Ex in Ey. injection Ey as -> ->. reflexivity.
Qed.

Section Vec.
  Context {A : Type} (f : A -> res tree) (texts : A -> list dvb) (mp : A -> A).
  Hypotheses (Hs : shows f texts) (Ht : tells f texts mp).
  Lemma vec_shows : shows (show_vec f) (flat_map texts).
  Proof.
    intros l. unfold show_vec. induction l as [|x l IH]; intros Hb.
    - left. split; [constructor|eexists; reflexivity].
    - cbn [flat_map] in *. apply Forall_app in Hb as [Hx Hl]. specialize (IH Hl). cbn [show_each].
      destruct (Hs x Hx) as [[P [v E]]|[P E]]; rewrite E; cbn [bind].
      + destruct (show_each f l) as [r| |]; cbn [bind] in *.
        * destruct IH as [[Q _]|[_ Q]]; [|discriminate]. left. split; [apply Forall_app; tauto|eexists; reflexivity].
        * destruct IH as [[_ [w Q]]|[Q _]]; [discriminate|]. right. split; [rewrite Forall_app; tauto|reflexivity].
        * destruct IH as [[_ [w Q]]|[_ Q]]; discriminate.
      + right. split; [rewrite Forall_app; tauto|reflexivity].
  Qed.
  Lemma each_tells : forall l k r, Forall byte_text (flat_map texts l) -> Forall byte_text (flat_map texts k) ->
    show_each f l = Ok r -> show_each f k = Ok r -> map mp l = map mp k.
  Proof.
    induction l as [|x l IH]; intros [|y k] r Hl Hk El Ek; cbn [show_each flat_map] in *.
    - reflexivity.
    - injection El as <-. destruct (f y); try discriminate. cbn [bind] in Ek. destruct (show_each f k); discriminate.
    - injection Ek as <-. destruct (f x); try discriminate. cbn [bind] in El. destruct (show_each f l); discriminate.
    - apply Forall_app in Hl as [Hx Hl]. apply Forall_app in Hk as [Hy Hk].
      destruct (f x) as [v| |] eqn:Fx; try discriminate. cbn [bind] in El. destruct (show_each f l) as [r1| |] eqn:F1; try discriminate.
      destruct (f y) as [w| |] eqn:Fy; try discriminate. cbn [bind] in Ek. destruct (show_each f k) as [r2| |] eqn:F2; try discriminate.
      cbn [bind] in El, Ek. injection El as <-. injection Ek as -> ->. cbn [map]. rewrite (Ht x y v Hx Hy Fx Fy).
      rewrite (IH k r1 Hl Hk eq_refl F2). reflexivity.
  Qed.
  Lemma vec_tells : tells (show_vec f) (flat_map texts) (map mp).
  Proof.
    intros l k v Hl Hk El Ek. unfold show_vec in *. destruct (show_each f l) as [r1| |] eqn:F1; try discriminate.
    destruct (show_each f k) as [r2| |] eqn:F2; try discriminate. cbn [bind] in El, Ek. injection El as <-. injection Ek as ->.
    exact (each_tells l k r1 Hl Hk F1 F2).
  Qed.
End Vec.

(** structures: [a] is a component that is shown *)
Lemma bytes_same l k : show_bytes l = show_bytes k -> l = k.
Proof.
  unfold show_bytes. intros [= H]. revert k H. induction l as [|x l IH]; intros [|y k] H; try discriminate; [reflexivity|].
  cbn in H. injection H as -> H. rewrite (IH k H). reflexivity.
Qed.

Ltac step S x := let P := fresh "P" in let v := fresh "v" in let E := fresh "E" in
  destruct (S x) as [[P [v E]]|[P E]]; [assumption| |].
Lemma one_byte t l : Forall byte_text (t :: l) -> Forall byte_text [t] /\ Forall byte_text l.
Proof. intros H. inversion H; subst. split; [constructor; [assumption|constructor]|assumption]. Qed.
Lemma one_print t l : Forall printable (t :: l) <-> Forall printable [t] /\ Forall printable l.
Proof. split; [intros H; inversion H; subst; split; [constructor; [assumption|constructor]|assumption]|intros [H H2]; inversion H; subst; constructor; assumption]. Qed.
Ltac byte_parts := repeat match goal with
  | H : Forall byte_text (?t :: ?s :: ?l) |- _ => apply one_byte in H as [? H]
  | H : Forall byte_text (?t :: ?l ++ ?k) |- _ => apply one_byte in H as [? H]
  | H : Forall byte_text (_ ++ _) |- _ => apply Forall_app in H as [? H]
  end.
Ltac print_parts := repeat match goal with
  | |- context [Forall printable (?t :: ?s :: ?l)] => rewrite (one_print t (s :: l))
  | |- context [Forall printable (?t :: ?l ++ ?k)] => rewrite (one_print t (l ++ k))
  | |- context [Forall printable (_ ++ _)] => rewrite Forall_app
  end.
Ltac done_show := first
  [ left; split; [print_parts; first [solve [constructor] | tauto]|eexists; reflexivity]
  | right; split; [print_parts; tauto|reflexivity] ].
Ltac see S x := let E := fresh "E" in destruct (S x ltac:(assumption)) as [[? [? E]]|[? E]]; rewrite E; cbn [bind]; [|done_show].

Lemma all_shown {A} (f : A -> tree) : shows (fun x => Ok (f x)) (fun _ => []).
Proof. intros x _. left. split; [constructor|eexists; reflexivity]. Qed.
Lemma flat_map_single {A B} (f : A -> B) l : flat_map (fun x => [f x]) l = map f l.
Proof. induction l as [|x l IH]; [reflexivity|]. cbn. rewrite IH. reflexivity. Qed.
Lemma flat_map_none {A B} (l : list A) : flat_map (fun _ => @nil B) l = [].
Proof. induction l as [|x l IH]; [reflexivity|exact IH]. Qed.

Lemma d0Ai_shows : shows d0Ai_show (fun i => [d0A_code i]).
Proof. intros x H. unfold d0Ai_show. see dvb_shows (d0A_code x). done_show. Qed.
Lemma d58i_shows : shows d58i_show (fun i => [d58_code i]).
Proof. intros x H. unfold d58i_show. see dvb_shows (d58_code x). done_show. Qed.
Lemma pair_shows : shows pair_show (fun p => [fst p; snd p]).
Proof. intros x H. byte_parts. unfold pair_show. see dvb_shows (fst x). see dvb_shows (snd x). done_show. Qed.
Lemma items_shows {A} name (f : A -> res tree) texts : shows f texts -> shows (show_items name f) (flat_map texts).
Proof. intros Hs x H. unfold show_items. see (vec_shows f texts Hs) x. done_show. Qed.

Lemma desc_shows : shows desc_show desc_texts.
Proof.
  intros d H. destruct d as [x|l|x|t|l|x|x|x|x|x|t|l|x|l|x]; cbn [desc_texts desc_show] in *; try done_show.
  - rewrite <- flat_map_single in *. apply items_shows; [exact d0Ai_shows|exact H].
  - see dvb_shows t. done_show.
  - pose proof (items_shows "Desc41" d41i_show (fun _ => []) (all_shown _) l) as S. rewrite flat_map_none in S. exact (S H).
  - byte_parts. unfold d48_show. see dvb_shows (d48_provider x). see dvb_shows (d48_name x). done_show.
  - byte_parts. unfold d4D_show. see dvb_shows (d4D_lang x). see dvb_shows (d4D_name x). see dvb_shows (d4D_text x). done_show.
  - byte_parts. unfold d4E_show. see dvb_shows (d4E_lang x). see (vec_shows _ _ pair_shows) (d4E_items x). see dvb_shows (d4E_text x). done_show.
  - rewrite <- flat_map_single in *. apply items_shows; [exact d58i_shows|exact H].
  - pose proof (items_shows "Desc83" d83i_show (fun _ => []) (all_shown _) l) as S. rewrite flat_map_none in S. exact (S H).
Qed.
Lemma descs_shows : shows descs_show texts_of.
Proof. exact (vec_shows _ _ desc_shows). Qed.

Lemma pmti_shows : shows pmt_item_show (fun i => texts_of (pmti_descs i)).
Proof. intros x H. unfold pmt_item_show. see descs_shows (pmti_descs x). done_show. Qed.
Lemma pmt_shows : shows pmt_show pmt_texts.
Proof. intros x H. unfold pmt_texts in *. byte_parts. unfold pmt_show. see descs_shows (pmt_descs x). see (vec_shows _ _ pmti_shows) (pmt_items x). done_show. Qed.
Lemma niti_shows : shows nit_item_show (fun i => texts_of (niti_descs i)).
Proof. intros x H. unfold nit_item_show. see descs_shows (niti_descs x). done_show. Qed.
Lemma nit_shows : shows nit_show nit_texts.
Proof. intros x H. unfold nit_texts in *. byte_parts. unfold nit_show. see descs_shows (nit_descs x). see (vec_shows _ _ niti_shows) (nit_items x). done_show. Qed.
Lemma sdti_shows : shows sdt_item_show (fun i => texts_of (sdti_descs i)).
Proof. intros x H. unfold sdt_item_show. see descs_shows (sdti_descs x). done_show. Qed.
Lemma sdt_shows : shows sdt_show sdt_texts.
Proof. intros x H. unfold sdt_texts in *. unfold sdt_show. see (vec_shows _ _ sdti_shows) (sdt_items x). done_show. Qed.
Lemma eiti_shows : shows eit_item_show (fun i => texts_of (eiti_descs i)).
Proof. intros x H. unfold eit_item_show. see descs_shows (eiti_descs x). done_show. Qed.
Lemma eit_shows : shows eit_show eit_texts.
Proof. intros x H. unfold eit_texts in *. unfold eit_show. see (vec_shows _ _ eiti_shows) (eit_items x). done_show. Qed.
Lemma tot_shows : shows tot_show tot_texts.
Proof. intros x H. unfold tot_texts in *. unfold tot_show. see descs_shows (tot_descs x). done_show. Qed.
Lemma pat_shows : shows pat_show (fun _ => []).
Proof.
  intros x _. unfold pat_show. pose proof (vec_shows pat_item_show (fun _ => []) (all_shown _) (pat_items x)) as S.
  rewrite flat_map_none in S. destruct (S (Forall_nil _)) as [[_ [v E]]|[N _]]; [|exfalso; apply N; constructor].
  rewrite E. cbn [bind]. done_show.
Qed.

(** ** what the output tells *)
Ltac got S x v H := let E := fresh "E" in destruct (S x) as [v| |] eqn:E; try discriminate H; cbn [bind] in H.
Lemma d0Ai_tells : tells d0Ai_show (fun i => [d0A_code i]) (fun i => mk0Ai (seen (d0A_code i)) (d0A_type i)).
Proof.
  intros x y v Hx Hy Ex Ey. unfold d0Ai_show in *. got dvb_show (d0A_code x) a Ex. got dvb_show (d0A_code y) b Ey.
  injection Ex as <-. injection Ey as -> ->. f_equal. eapply dvb_tells; eassumption.
Qed.
Lemma d58i_tells : tells d58i_show (fun i => [d58_code i])
  (fun i => mk58i (seen (d58_code i)) (d58_region i) (d58_pol i) (d58_offset i) (d58_time i) (d58_next i)).
Proof.
  intros x y v Hx Hy Ex Ey. unfold d58i_show in *. got dvb_show (d58_code x) a Ex. got dvb_show (d58_code y) b Ey.
  injection Ex as <-. injection Ey as -> -> -> -> -> ->. f_equal. eapply dvb_tells; eassumption.
Qed.
Lemma pair_tells : tells pair_show (fun p => [fst p; snd p]) (fun p => (seen (fst p), seen (snd p))).
Proof.
  intros x y v Hx Hy Ex Ey. byte_parts. unfold pair_show in *. got dvb_show (fst x) a Ex. got dvb_show (snd x) a2 Ex.
  got dvb_show (fst y) b Ey. got dvb_show (snd y) b2 Ey. injection Ex as <-. injection Ey as -> ->.
  f_equal; eapply dvb_tells; eassumption.
Qed.
Lemma d41i_tells : tells d41i_show (fun _ => []) (fun i => i).
Proof. intros [] [] v _ _ Ex Ey. unfold d41i_show, d83i_show, pat_item_show in *. cbn in *. congruence. Qed.
Lemma d83i_tells : tells d83i_show (fun _ => []) (fun i => i).
Proof. intros [] [] v _ _ Ex Ey. unfold d41i_show, d83i_show, pat_item_show in *. cbn in *. congruence. Qed.
Lemma items_tells {A} name (f : A -> res tree) texts mp : tells f texts mp -> tells (show_items name f) (flat_map texts) (map mp).
Proof.
  intros Ht x y v Hx Hy Ex Ey. unfold show_items in *. got (show_vec f) x a Ex. got (show_vec f) y b Ey.
  injection Ex as <-. injection Ey as ->. eapply (vec_tells f texts mp Ht); eassumption.
Qed.
(** the name of the structure tells the type *)
Definition desc_name (d : desc) : string :=
  match d with
  | D09 _ => "Desc09" | D0A _ => "Desc0A" | D0E _ => "Desc0E" | D40 _ => "Desc40" | D41 _ => "Desc41" | D43 _ => "Desc43"
  | D44 _ => "Desc44" | D48 _ => "Desc48" | D4D _ => "Desc4D" | D4E _ => "Desc4E" | D52 _ => "Desc52" | D58 _ => "Desc58"
  | D5A _ => "Desc5A" | D83 _ => "Desc83" | DRaw _ => "DescRaw"
  end%string.
Definition name_of (v : tree) : string := match v with SStruct n _ => n | _ => ""%string end.
Lemma desc_named d v : desc_show d = Ok v -> name_of v = desc_name d.
Proof.
  destruct d as [x|l|x|t|l|x|x|x|x|x|t|l|x|l|x]; cbn [desc_show]; intros H;
    try (injection H as <-; reflexivity);
    try (unfold show_items in H; match type of H with context [show_vec ?f l] => got (show_vec f) l a H end; injection H as <-; reflexivity).
  - got dvb_show t a H. injection H as <-. reflexivity.
  - unfold d48_show in H. got dvb_show (d48_provider x) a H. got dvb_show (d48_name x) b H. injection H as <-. reflexivity.
  - unfold d4D_show in H. got dvb_show (d4D_lang x) a H. got dvb_show (d4D_name x) b H. got dvb_show (d4D_text x) c H. injection H as <-. reflexivity.
  - unfold d4E_show in H. got dvb_show (d4E_lang x) a H. got (show_vec pair_show) (d4E_items x) b H. got dvb_show (d4E_text x) c H.
    injection H as <-. reflexivity.
Qed.
Lemma map_same {A} (l : list A) : map (fun x => x) l = l.
Proof. apply map_id. Qed.
Lemma desc_tells : tells desc_show desc_texts (desc_map seen).
Proof.
  intros x y v Hx Hy Ex Ey. assert (E : desc_name x = desc_name y) by (rewrite <- (desc_named x v Ex); apply (desc_named y v Ey)).
  destruct x as [a|l|a|t|l|a|a|a|a|a|t|l|a|l|a], y as [b|k|b|s|k|b|b|b|b|b|s|k|b|k|b]; try discriminate E; clear E;
    cbn [desc_texts desc_show desc_map] in *.
  - destruct a, b. unfold d09_show in *. cbn in *. injection Ex as <-. injection Ey as -> -> H.
    rewrite (bytes_same _ _ (f_equal SList H)). reflexivity.
  - f_equal. rewrite <- flat_map_single in *. eapply (items_tells _ _ _ _ d0Ai_tells); eassumption.
  - destruct a, b. unfold d0E_show, d43_show, d44_show, d5A_show in *. cbn in *. congruence.
  - got dvb_show t w Ex. got dvb_show s u Ey. injection Ex as <-. injection Ey as ->. f_equal. eapply dvb_tells; eassumption.
  - f_equal. rewrite <- (map_same l), <- (map_same k).
    eapply (items_tells _ _ _ _ d41i_tells); [rewrite flat_map_none; constructor|rewrite flat_map_none; constructor|eassumption|eassumption].
  - destruct a, b. unfold d0E_show, d43_show, d44_show, d5A_show in *. cbn in *. congruence.
  - destruct a, b. unfold d0E_show, d43_show, d44_show, d5A_show in *. cbn in *. congruence.
  - byte_parts. unfold d48_show in *. got dvb_show (d48_provider a) v1 Ex. got dvb_show (d48_name a) v2 Ex.
    got dvb_show (d48_provider b) w1 Ey. got dvb_show (d48_name b) w2 Ey. injection Ex as <-. injection Ey as -> -> ->.
    f_equal. f_equal; eapply dvb_tells; eassumption.
  - byte_parts. unfold d4D_show in *. got dvb_show (d4D_lang a) v1 Ex. got dvb_show (d4D_name a) v2 Ex. got dvb_show (d4D_text a) v3 Ex.
    got dvb_show (d4D_lang b) w1 Ey. got dvb_show (d4D_name b) w2 Ey. got dvb_show (d4D_text b) w3 Ey.
    injection Ex as <-. injection Ey as -> -> ->. f_equal. f_equal; eapply dvb_tells; eassumption.
  - byte_parts. unfold d4E_show in *. got dvb_show (d4E_lang a) v1 Ex. got (show_vec pair_show) (d4E_items a) v2 Ex. got dvb_show (d4E_text a) v3 Ex.
    got dvb_show (d4E_lang b) w1 Ey. got (show_vec pair_show) (d4E_items b) w2 Ey. got dvb_show (d4E_text b) w3 Ey.
    injection Ex as <-. injection Ey as -> -> -> -> ->. f_equal. f_equal; first [eapply dvb_tells; eassumption|eapply (vec_tells _ _ _ pair_tells); eassumption].
  - congruence.
  - f_equal. rewrite <- flat_map_single in *. eapply (items_tells _ _ _ _ d58i_tells); eassumption.
  - destruct a, b. unfold d0E_show, d43_show, d44_show, d5A_show in *. cbn in *. congruence.
  - f_equal. rewrite <- (map_same l), <- (map_same k).
    eapply (items_tells _ _ _ _ d83i_tells); [rewrite flat_map_none; constructor|rewrite flat_map_none; constructor|eassumption|eassumption].
  - destruct a, b. unfold raw_show in *. cbn in *. injection Ex as <-. injection Ey as -> H.
    rewrite (bytes_same _ _ (f_equal SList H)). reflexivity.
Qed.
Lemma descs_tells : tells descs_show texts_of (descs_map seen).
Proof. exact (vec_tells _ _ _ desc_tells). Qed.

Lemma pmti_tells : tells pmt_item_show (fun i => texts_of (pmti_descs i)) (fun i => mkPmtI (pmti_type i) (pmti_pid i) (descs_map seen (pmti_descs i))).
Proof.
  intros x y v Hx Hy Ex Ey. unfold pmt_item_show in *. got descs_show (pmti_descs x) a Ex. got descs_show (pmti_descs y) b Ey.
  injection Ex as <-. injection Ey as -> -> ->. f_equal. eapply descs_tells; eassumption.
Qed.
Lemma pmt_tells : tells pmt_show pmt_texts (pmt_map seen).
Proof.
  intros x y v Hx Hy Ex Ey. unfold pmt_texts in *. byte_parts. unfold pmt_show in *. got descs_show (pmt_descs x) a Ex.
  got (show_vec pmt_item_show) (pmt_items x) a2 Ex. got descs_show (pmt_descs y) b Ey. got (show_vec pmt_item_show) (pmt_items y) b2 Ey.
  injection Ex as <-. injection Ey as F1 F2 F3 -> ->. unfold pmt_map. rewrite F1, F2, F3.
  f_equal; first [eapply descs_tells; eassumption|eapply (vec_tells _ _ _ pmti_tells); eassumption].
Qed.
Lemma niti_tells : tells nit_item_show (fun i => texts_of (niti_descs i)) (fun i => mkNitI (niti_tsid i) (niti_onid i) (descs_map seen (niti_descs i))).
Proof.
  intros x y v Hx Hy Ex Ey. unfold nit_item_show in *. got descs_show (niti_descs x) a Ex. got descs_show (niti_descs y) b Ey.
  injection Ex as <-. injection Ey as -> -> ->. f_equal. eapply descs_tells; eassumption.
Qed.
Lemma nit_tells : tells nit_show nit_texts (nit_map seen).
Proof.
  intros x y v Hx Hy Ex Ey. unfold nit_texts in *. byte_parts. unfold nit_show in *. got descs_show (nit_descs x) a Ex.
  got (show_vec nit_item_show) (nit_items x) a2 Ex. got descs_show (nit_descs y) b Ey. got (show_vec nit_item_show) (nit_items y) b2 Ey.
  injection Ex as <-. injection Ey as F1 F2 F3 -> ->. unfold nit_map. rewrite F1, F2, F3.
  f_equal; first [eapply descs_tells; eassumption|eapply (vec_tells _ _ _ niti_tells); eassumption].
Qed.
Lemma sdti_tells : tells sdt_item_show (fun i => texts_of (sdti_descs i))
  (fun i => mkSdtI (sdti_pnr i) (sdti_sched i) (sdti_pf i) (sdti_status i) (sdti_ca i) (descs_map seen (sdti_descs i))).
Proof.
  intros x y v Hx Hy Ex Ey. unfold sdt_item_show in *. got descs_show (sdti_descs x) a Ex. got descs_show (sdti_descs y) b Ey.
  injection Ex as <-. injection Ey as -> -> -> -> -> ->. f_equal. eapply descs_tells; eassumption.
Qed.
Lemma sdt_tells : tells sdt_show sdt_texts (sdt_map seen).
Proof.
  intros x y v Hx Hy Ex Ey. unfold sdt_texts, sdt_show in *. got (show_vec sdt_item_show) (sdt_items x) a Ex.
  got (show_vec sdt_item_show) (sdt_items y) b Ey. injection Ex as <-. injection Ey as F1 F2 F3 F4 ->. unfold sdt_map. rewrite F1, F2, F3, F4.
  f_equal. eapply (vec_tells _ _ _ sdti_tells); eassumption.
Qed.
Lemma eiti_tells : tells eit_item_show (fun i => texts_of (eiti_descs i))
  (fun i => mkEitI (eiti_id i) (eiti_start i) (eiti_duration i) (eiti_status i) (eiti_ca i) (descs_map seen (eiti_descs i))).
Proof.
  intros x y v Hx Hy Ex Ey. unfold eit_item_show in *. got descs_show (eiti_descs x) a Ex. got descs_show (eiti_descs y) b Ey.
  injection Ex as <-. injection Ey as -> -> -> -> -> ->. f_equal. eapply descs_tells; eassumption.
Qed.
Lemma eit_tells : tells eit_show eit_texts (eit_map seen).
Proof.
  intros x y v Hx Hy Ex Ey. unfold eit_texts, eit_show in *. got (show_vec eit_item_show) (eit_items x) a Ex.
  got (show_vec eit_item_show) (eit_items y) b Ey. injection Ex as <-. injection Ey as F1 F2 F3 F4 F5 ->. unfold eit_map. rewrite F1, F2, F3, F4, F5.
  f_equal. eapply (vec_tells _ _ _ eiti_tells); eassumption.
Qed.
Lemma tot_tells : tells tot_show tot_texts (tot_map seen).
Proof.
  intros x y v Hx Hy Ex Ey. unfold tot_texts, tot_show in *. got descs_show (tot_descs x) a Ex. got descs_show (tot_descs y) b Ey.
  injection Ex as <-. injection Ey as F1 ->. unfold tot_map. rewrite F1. f_equal. eapply descs_tells; eassumption.
Qed.
Lemma pati_tells : tells pat_item_show (fun _ => []) (fun i => i).
Proof. intros [] [] v _ _ Ex Ey. unfold d41i_show, d83i_show, pat_item_show in *. cbn in *. congruence. Qed.
Lemma pat_tells x y v : pat_show x = Ok v -> pat_show y = Ok v -> x = y.
Proof.
  intros Ex Ey. unfold pat_show in *. got (show_vec pat_item_show) (pat_items x) a Ex. got (show_vec pat_item_show) (pat_items y) b Ey.
  destruct x as [v1 t1 i1], y as [v2 t2 i2]. cbn [pat_version pat_tsid pat_items] in *. injection Ex as <-. injection Ey as -> -> ->. f_equal.
  rewrite <- (map_same i1), <- (map_same i2).
  eapply (vec_tells _ _ _ pati_tells); [rewrite flat_map_none; constructor|rewrite flat_map_none; constructor|eassumption|eassumption].
Qed.
Lemma psi_tells x y v : psi_show x = Ok v -> psi_show y = Ok v -> x = y.
Proof.
  destruct x as [b1 s1 i1 c1], y as [b2 s2 i2 c2]. unfold psi_show. cbn [p_buffer p_size p_pid p_cc]. intros [= <-] E. unfold show_bytes in E. injection E as H1 H2 -> ->.
  rewrite (bytes_same _ _ (f_equal SList H1)). f_equal. apply Nat2N.inj. symmetry. assumption.
Qed.

(** ** from the wire *)
Lemma text_read_byte w : bytes w -> byte_text (text_read w).
Proof. intros H. exact (proj2 (P_forward.text_read_ok w H)). Qed.
Lemma dark_read w : bytes w -> ~ printable (text_read w) <-> dark w.
Proof.
  intros Hb. unfold dark, printable, text_read. destruct w as [|x d].
  { cbn. split; [tauto|]. intros (c & e & _ & [[H _]|[y [H _]]]); discriminate. }
  split.
  - destruct (N.eqb_spec x 21) as [->|N21]; [unfold known_page; cbn; tauto|].
    destruct (N.leb_spec 0x20 x) as [H|H]; [unfold known_page; cbn; tauto|].
    destruct (N.ltb_spec x 0x10) as [H2|H2].
    + cbn [t_data t_cp]. intros K. exists x, d. split; [tauto|]. left. split; [reflexivity|].
      assert (~ known_page (x + 4)) as Q by tauto.
      assert (K2 : forall k, x = k -> known_page (k + 4) -> x = 8 \/ 12 <= x <= 15) by (intros k -> ?; contradiction).
      assert (C : x = 0 \/ x = 1 \/ x = 2 \/ x = 3 \/ x = 4 \/ x = 5 \/ x = 6 \/ x = 7 \/ x = 8 \/ x = 9 \/ x = 10 \/ x = 11 \/ 12 <= x <= 15) by lia.
      repeat (destruct C as [C|C]; [first [left; exact C|apply (K2 _ C); right; vm_compute; tauto]|]). right. exact C.
    + destruct d as [|y [|z e]]; [unfold known_page; cbn; tauto|unfold known_page; cbn; tauto|].
      destruct (N.eqb_spec x 0x10) as [->|N16]; [|unfold known_page; cbn; tauto].
      cbn [t_data t_cp]. intros K. exists z, e. split; [tauto|]. right. exists y. split; [reflexivity|tauto].
  - intros (c & e & He & [[E H]|[y [E H]]]).
    + injection E as -> ->. destruct (N.eqb_spec c 21); [lia|]. destruct (N.leb_spec 0x20 c); [lia|]. destruct (N.ltb_spec c 0x10); [|lia].
      cbn [t_data t_cp]. intros [K|[K|K]]; [contradiction|lia|]. cbn [map fst pages In] in K. lia.
    + injection E as -> ->. change (0x10 =? 21) with false. change (0x20 <=? 0x10) with false. change (0x10 <? 0x10) with false.
      change (0x10 =? 0x10) with true. cbn [t_data t_cp]. tauto.
Qed.
Lemma firstn_bytes n (l : list N) : bytes l -> bytes (firstn n l).
Proof. intros H. apply Forall_forall. intros x Hx. apply (proj1 (Forall_forall _ _) H). rewrite <- (firstn_skipn n l). apply in_or_app. left. exact Hx. Qed.
Lemma skipn_bytes n (l : list N) : bytes l -> bytes (skipn n l).
Proof. intros H. apply Forall_forall. intros x Hx. apply (proj1 (Forall_forall _ _) H). rewrite <- (firstn_skipn n l). apply in_or_app. right. exact Hx. Qed.
Lemma groups_bytes k b g : (0 < k)%nat -> bytes b -> In g (all_groups k b) -> bytes g.
Proof. intros _ Hb Hg. unfold all_groups in Hg. pose proof (P_forward.groups_bytes k (length b / k) b Hb) as H. exact (proj1 (Forall_forall _ _) H g Hg). Qed.

Lemma app_parts {A} (a b c d : list A) : a ++ b = c ++ d -> length a = length c -> a = c /\ b = d.
Proof.
  revert c. induction a as [|x a IH]; intros [|y c] E L; try discriminate; [split; [reflexivity|exact E]|].
  cbn in E. injection E as -> E. destruct (IH c E) as [-> ->]; [cbn in L; lia|]. split; reflexivity.
Qed.

(** the texts of a descriptor that was read are those of its wire bytes *)
Definition wires (b : list N) (t : N) (d : desc) : Prop :=
  (forall x, In x (desc_texts d) -> exists w, text_in b t w /\ bytes w /\ x = text_read w) /\
  (forall w, text_in b t w -> In (text_read w) (desc_texts d)).
Lemma items_wires n l items : items_read n l items -> bytes l ->
  (forall x, In x (flat_map (fun p => [fst p; snd p]) items) -> exists w, item_text n l w /\ bytes w /\ x = text_read w) /\
  (forall w, item_text n l w -> In (text_read w) (flat_map (fun p => [fst p; snd p]) items)).
Proof.
  intros H. induction H as [l|n x y l items H IH Hn]; intros Hb.
  - split; [intros ? []|]. intros w Hw. exfalso. inversion Hw; lia.
  - apply Forall_app in Hb as [Hx Hb]. apply Forall_app in Hb as [Hy Hb]. inversion Hx as [|? ? _ Hx']; subst. inversion Hy as [|? ? _ Hy']; subst.
    destruct (IH Hb) as [I1 I2]. clear IH. split.
    + intros t. cbn [flat_map fst snd app]. intros [<-|[<-|Ht]].
      * exists x. split; [apply item_name; exact Hn|split; [exact Hx'|reflexivity]].
      * exists y. split; [apply item_value; exact Hn|split; [exact Hy'|reflexivity]].
      * destruct (I1 t Ht) as (w & W1 & W2 & W3). exists w. split; [apply item_later; assumption|split; assumption].
    + intros w Hw.
      assert (K : forall x' y' l', (N.of_nat (length x') :: x') ++ (N.of_nat (length y') :: y') ++ l' =
        (N.of_nat (length x) :: x) ++ (N.of_nat (length y) :: y) ++ l -> x' = x /\ y' = y /\ l' = l).
      { intros x' y' l' E. cbn [app] in E. injection E as E1 E. apply Nat2N.inj in E1. apply app_parts in E as [-> E]; [|exact E1].
        injection E as E2 E. apply Nat2N.inj in E2. apply app_parts in E as [-> E]; [|exact E2]. auto. }
      cbn [flat_map fst snd app].
      remember ((N.of_nat (length x) :: x) ++ (N.of_nat (length y) :: y) ++ l) as whole eqn:W in Hw.
      destruct Hw as [n' x' y' l' Hn'|n' x' y' l' Hn'|n' x' y' l' w' Hn' Hw']; destruct (K _ _ _ W) as (-> & -> & ->).
      * left. reflexivity.
      * right. left. reflexivity.
      * right. right. apply I2. exact Hw'.
Qed.

Lemma reads_wires b t d : bytes b -> reads b t d -> wires b t d.
Proof.
  intros Hb H. unfold wires. destruct H; cbn [desc_texts].
  all: try (split; [intros ? []|intros w Hw; inversion Hw; subst; lia]).
  - split.
    + intros x Hx. apply in_map_iff in Hx as [i [<- Hi]]. apply in_map_iff in Hi as [g [<- Hg]]. exists (firstn 3 g).
      split; [constructor; assumption|]. split; [apply firstn_bytes; apply (groups_bytes 4 b); [lia|assumption|assumption]|reflexivity].
    + intros w Hw. inversion Hw; subst. apply in_map_iff. exists (read_0A g). split; [reflexivity|]. apply in_map. assumption.
  - split.
    + intros x [<-|[]]. exists b. split; [constructor|split; [assumption|reflexivity]].
    + intros w Hw. inversion Hw; subst. left. reflexivity.
  - split.
    + intros x [<-|[<-|[]]]; cbn [d48_provider d48_name]; eexists; (split; [apply in_48; [assumption|assumption|]|split; [apply P_forward2.wire_bytes; assumption|apply P_forward2.wire_text]]); auto.
    + intros w Hw. inversion Hw as [| |i ? ? Hi| | | | | |]; subst. destruct Hi as [->| ->]; rewrite <- P_forward2.wire_text; cbn; auto.
  - split.
    + intros x [<-|[<-|[<-|[]]]]; cbn [d4D_lang d4D_name d4D_text].
      * exists (firstn 3 b). split; [apply in_4D_lang; assumption|split; [apply firstn_bytes; assumption|reflexivity]].
      * exists (wire_at b 3). split; [apply in_4D; auto|split; [apply P_forward2.wire_bytes; assumption|apply P_forward2.wire_text]].
      * exists (wire_at b (4 + len_at b 3)). split; [apply in_4D; auto|split; [apply P_forward2.wire_bytes; assumption|apply P_forward2.wire_text]].
    + intros w Hw. inversion Hw as [| | |? ?|i ? ? Hi| | | |]; subst; [left; reflexivity|].
      destruct Hi as [->| ->]; rewrite <- P_forward2.wire_text; cbn; auto.
  - destruct (items_wires _ _ _ H1 (skipn_bytes 5 b Hb)) as [I1 I2]. split.
    + intros x [<-|Hx]; cbn [d4E_lang d4E_items d4E_text] in *.
      * exists (firstn 3 (skipn 1 b)). split; [apply in_4E_lang; assumption|split; [apply firstn_bytes, skipn_bytes; assumption|reflexivity]].
      * apply in_app_or in Hx as [Hx|[<-|[]]].
        -- destruct (I1 x Hx) as (w & W1 & W2 & W3). exists w. split; [apply in_4E_item; assumption|split; assumption].
        -- exists (wire_at b (5 + len_at b 4)). split; [apply in_4E; assumption|split; [apply P_forward2.wire_bytes; assumption|apply P_forward2.wire_text]].
    + cbn [d4E_lang d4E_items d4E_text]. intros w Hw. inversion Hw as [| | | | |? ?|w' ? ? Hi|? ?|]; subst.
      * left. reflexivity.
      * right. apply in_or_app. left. apply I2. exact Hi.
      * right. apply in_or_app. right. rewrite <- P_forward2.wire_text. left. reflexivity.
  - split.
    + intros x Hx. apply in_map_iff in Hx as [i [<- Hi]]. apply in_map_iff in Hi as [g [<- Hg]]. exists (firstn 3 g).
      split; [constructor; assumption|]. split; [apply firstn_bytes; apply (groups_bytes 13 b); [lia|assumption|assumption]|reflexivity].
    + intros w Hw. inversion Hw; subst. apply in_map_iff. exists (read_58 g). split; [reflexivity|]. apply in_map. assumption.
  - split; [intros ? []|]. intros w Hw. exfalso. apply H. inversion Hw; subst; cbn; tauto.
Qed.
Lemma item_text_bytes n l w : item_text n l w -> bytes l -> bytes w.
Proof.
  intros H. induction H as [n x y l Hn|n x y l Hn|n x y l w Hn H IH]; intros Hb; apply Forall_app in Hb as [Hx Hb]; apply Forall_app in Hb as [Hy Hb].
  - inversion Hx; assumption.
  - inversion Hy; assumption.
  - exact (IH Hb).
Qed.
Lemma text_in_bytes b t w : bytes b -> text_in b t w -> bytes w.
Proof.
  intros Hb H. destruct H; try (apply P_forward2.wire_bytes; assumption); try assumption.
  - apply firstn_bytes, (groups_bytes 4 b); [lia|assumption|assumption].
  - apply firstn_bytes; assumption.
  - apply firstn_bytes, skipn_bytes; assumption.
  - eapply item_text_bytes; [eassumption|apply skipn_bytes; assumption].
  - apply firstn_bytes, (groups_bytes 13 b); [lia|assumption|assumption].
Qed.
Lemma print_dec x : printable x \/ ~ printable x.
Proof. unfold printable. destruct (t_data x); [left; left; reflexivity|]. destruct (known_dec (t_cp x)); [tauto|right; intros [?|?]; [discriminate|contradiction]]. Qed.
Lemma not_all l : ~ Forall printable l -> exists x, In x l /\ ~ printable x.
Proof.
  induction l as [|x l IH]; intros H; [exfalso; apply H; constructor|]. destruct (print_dec x) as [P|P].
  - destruct IH as (y & Hy & Q); [intros F; apply H; constructor; assumption|]. exists y. split; [right; exact Hy|exact Q].
  - exists x. split; [left; reflexivity|exact P].
Qed.
Lemma desc_dark b t d : bytes b -> reads b t d ->
  (desc_show d = Panic <-> exists w, text_in b t w /\ dark w) /\ (desc_show d <> Panic -> exists v, desc_show d = Ok v).
Proof.
  intros Hb Hr. destruct (reads_wires b t d Hb Hr) as [W1 W2].
  assert (B : Forall byte_text (desc_texts d)).
  { apply Forall_forall. intros x Hx. destruct (W1 x Hx) as (w & _ & Bw & ->). apply text_read_byte. exact Bw. }
  destruct (desc_shows d B) as [[P [v E]]|[P E]]; rewrite E; (split; [split|]).
  - discriminate.
  - intros (w & Hw & D). exfalso. pose proof (W2 w Hw) as Hx. pose proof (proj1 (Forall_forall _ _) P _ Hx) as Q.
    pose proof (W1 _ Hx) as (w' & Hw' & Bw & Ew). rewrite Ew in Q.
    assert (Bb : bytes w). { apply (text_in_bytes b t); assumption. }
    apply (dark_read w Bb) in D. apply D. rewrite Ew. exact Q.
  - intros _. exists v. reflexivity.
  - intros _. apply not_all in P. destruct P as (x & Hx & Nx). destruct (W1 x Hx) as (w & Hw & Bw & ->). exists w.
    split; [exact Hw|]. apply dark_read; assumption.
  - reflexivity.
  - congruence.
Qed.
