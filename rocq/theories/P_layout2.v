(** Proofs: the views of tables are well formed, and what is written holds no control characters. *)
From Coq Require Import String.
From Verif Require Import Prelude Facts M_text M_desc M_psi M_tables M_debug M_show M_layout S_layout P_layout.
Local Open Scope string_scope.
Local Open Scope list_scope.
Local Open Scope N_scope.

Definition well {A} (show : A -> res tree) : Prop := forall x v, show x = Ok v -> formed v.
Lemma bytes_formed l : formed (show_bytes l).
Proof. apply formed_list, Forall_forall. intros x Hx. apply in_map_iff in Hx as (n & <- & _). exact I. Qed.
Lemma vec_well {A} (f : A -> res tree) : well f -> well (show_vec f).
Proof.
  intros W l v. unfold show_vec. assert (H : forall r, show_each f l = Ok r -> Forall formed r).
  { induction l as [|x l IH]; intros r; cbn [show_each]; [intros [= <-]; constructor|].
    destruct (f x) as [y| |] eqn:E; cbn [bind]; try discriminate. destruct (show_each f l) as [q| |]; cbn [bind]; try discriminate.
    intros [= <-]. constructor; [exact (W _ _ E)|exact (IH q eq_refl)]. }
  destruct (show_each f l) as [r| |]; cbn [bind]; try discriminate. intros [= <-]. apply formed_list, H. reflexivity.
Qed.
Lemma dvb_well : well dvb_show.
Proof.
  intros t v. unfold dvb_show. destruct (dvb_to_string t); cbn [bind]; try discriminate. intros [= <-].
  repeat split; discriminate.
Qed.
(** results of the views inside, then the fields one by one *)
Ltac inside :=
  match goal with
  | H : bind (?f ?x) _ = Ok _ |- _ =>
    let E := fresh "E" in destruct (f x) eqn:E; cbn [bind] in H; try discriminate;
    (first [apply dvb_well in E|idtac])
  end.
Ltac formed_now := repeat inside;
  match goal with H : Ok _ = Ok _ |- _ => injection H as <- end;
  cbn [formed fst snd]; repeat match goal with |- _ /\ _ => split end; try exact I; try reflexivity; try discriminate; try assumption; try apply bytes_formed.
Lemma d0Ai_well : well d0Ai_show.
Proof. intros x v H. unfold d0Ai_show in H. formed_now. Qed.
Lemma d41i_well : well d41i_show.
Proof. intros x v H. unfold d41i_show in H. formed_now. Qed.
Lemma d58i_well : well d58i_show.
Proof. intros x v H. unfold d58i_show in H. formed_now. Qed.
Lemma d83i_well : well d83i_show.
Proof. intros x v H. unfold d83i_show in H. formed_now. Qed.
Lemma pair_well : well pair_show.
Proof. intros x v H. unfold pair_show in H. formed_now. Qed.
Lemma items_well {A} n (f : A -> res tree) : is_name n = true -> well f -> well (show_items n f).
Proof.
  intros N W x v H. unfold show_items in H. destruct (show_vec f x) eqn:E; cbn [bind] in H; try discriminate. apply (vec_well f W) in E.
  formed_now.
Qed.
Lemma desc_well : well desc_show.
Proof.
  intros d v H. destruct d; cbn [desc_show] in H.
  - unfold d09_show in H. formed_now.
  - revert H. apply items_well; [reflexivity|exact d0Ai_well].
  - unfold d0E_show in H. formed_now.
  - formed_now.
  - revert H. apply items_well; [reflexivity|exact d41i_well].
  - unfold d43_show in H. formed_now.
  - unfold d44_show in H. formed_now.
  - unfold d48_show in H. formed_now.
  - unfold d4D_show in H. formed_now.
  - unfold d4E_show in H. inside. match type of H with bind (?f ?x) _ = _ => destruct (f x) eqn:E1; cbn [bind] in H; try discriminate end.
    apply (vec_well _ pair_well) in E1. formed_now.
  - formed_now.
  - revert H. apply items_well; [reflexivity|exact d58i_well].
  - unfold d5A_show in H. formed_now.
  - revert H. apply items_well; [reflexivity|exact d83i_well].
  - unfold raw_show in H. formed_now.
Qed.
Lemma descs_well : well descs_show.
Proof. exact (vec_well _ desc_well). Qed.
Ltac inside2 :=
  repeat match goal with
  | H : bind (descs_show ?x) _ = Ok _ |- _ =>
    let E := fresh "E" in destruct (descs_show x) eqn:E; cbn [bind] in H; try discriminate; apply descs_well in E
  end.
Lemma pat_item_well : well pat_item_show.
Proof. intros x v H. unfold pat_item_show in H. formed_now. Qed.
Lemma pmt_item_well : well pmt_item_show.
Proof. intros x v H. unfold pmt_item_show in H. inside2. formed_now. Qed.
Lemma nit_item_well : well nit_item_show.
Proof. intros x v H. unfold nit_item_show in H. inside2. formed_now. Qed.
Lemma sdt_item_well : well sdt_item_show.
Proof. intros x v H. unfold sdt_item_show in H. inside2. formed_now. Qed.
Lemma eit_item_well : well eit_item_show.
Proof. intros x v H. unfold eit_item_show in H. inside2. formed_now. Qed.
Ltac table W := inside2;
  match goal with H : bind (show_vec ?f ?x) _ = Ok _ |- _ => let E := fresh "E" in destruct (show_vec f x) eqn:E; cbn [bind] in H; try discriminate;
    apply (vec_well f W) in E end; formed_now.
Lemma pat_well : well pat_show.
Proof. intros x v H. unfold pat_show in H. table pat_item_well. Qed.
Lemma pmt_well : well pmt_show.
Proof. intros x v H. unfold pmt_show in H. table pmt_item_well. Qed.
Lemma nit_well : well nit_show.
Proof. intros x v H. unfold nit_show in H. table nit_item_well. Qed.
Lemma sdt_well : well sdt_show.
Proof. intros x v H. unfold sdt_show in H. table sdt_item_well. Qed.
Lemma eit_well : well eit_show.
Proof. intros x v H. unfold eit_show in H. table eit_item_well. Qed.
Lemma tdt_well : well tdt_show.
Proof. intros x v H. unfold tdt_show in H. formed_now. Qed.
Lemma tot_well : well tot_show.
Proof. intros x v H. unfold tot_show in H. inside2. formed_now. Qed.
Lemma psi_well : well psi_show.
Proof. intros x v H. unfold psi_show in H. formed_now. Qed.

(** ** the characters *)
Section Chars.
Variable higher : N -> bool.
Notation fine := (harmless higher).
Lemma ascii_fine s : forallb (fun c => (32 <=? c) && (c <? 127)) s = true -> Forall fine s.
Proof. intros H. apply Forall_forall. intros x Hx. rewrite forallb_forall in H. specialize (H x Hx). left. lia. Qed.
Lemma dec_fine n : Forall fine (codes (dec n)).
Proof.
  destruct (dec_digits n) as (c & r & -> & _ & F). apply Forall_forall. intros x Hx. rewrite forallb_forall in F. specialize (F x Hx).
  unfold digit in F. left. lia.
Qed.
Lemma name_fine n : is_name n = true -> Forall fine (codes n).
Proof.
  intros H. apply is_name_chars in H as (c & r & -> & _ & F). apply Forall_forall. intros x Hx. rewrite forallb_forall in F. specialize (F x Hx).
  unfold wordy, letter, digit in F. left. lia.
Qed.
Lemma escape_fine c : Forall fine (escape higher c).
Proof.
  destruct (escape_cases higher c) as [(E & _ & _ & _ & S)|[(y & E & Hy)|(E & _)]]; rewrite E.
  - constructor; [|constructor]. unfold shows_itself in S. destruct (N.ltb_spec c 32); [discriminate|]. destruct (N.ltb_spec c 127); [left; lia|right; auto].
  - apply ascii_fine. cbn [In] in Hy.
    repeat match goal with H : _ \/ _ |- _ => destruct H as [H|H] | H : (_, _) = (_, _) |- _ => injection H as ? ?; subst | H : False |- _ => destruct H end; reflexivity.
  - apply Forall_app. split; [apply ascii_fine; reflexivity|]. apply Forall_app. split; [|apply ascii_fine; reflexivity].
    apply Forall_forall. intros x Hx. pose proof (hex_digits c) as F. rewrite forallb_forall in F. specialize (F x Hx). unfold hexdigit, digit in F. left. lia.
Qed.
Lemma text_fine s : Forall fine (text_chars higher s).
Proof.
  unfold text_chars. apply Forall_app. split; [apply ascii_fine; reflexivity|]. apply Forall_app. split; [|apply ascii_fine; reflexivity].
  apply Forall_forall. intros x Hx. apply in_flat_map in Hx as (c & _ & Hx). pose proof (escape_fine c) as F. rewrite Forall_forall in F. auto.
Qed.
Lemma rest_all (P : N -> Prop) sp cl l : Forall P sp -> Forall P cl -> Forall (Forall P) l -> Forall P (rest sp cl l).
Proof.
  intros Hs Hc. induction 1 as [|x l Hx F IH]; [exact Hc|]. cbn [rest]. apply Forall_app. split; [exact Hs|]. apply Forall_app. split; assumption.
Qed.
Lemma lay_chars alt t : formed t -> forall k, Forall (fun c => fine c \/ alt = true /\ c = 10) (lay higher alt k t).
Proof.
  set (P := fun c => fine c \/ alt = true /\ c = 10).
  assert (W : forall l, Forall fine l -> Forall P l) by (intros l; apply Forall_impl; intros c H; left; exact H).
  assert (A : forall l, forallb (fun c => (32 <=? c) && (c <? 127)) l = true -> Forall P l) by (intros l H; apply W, ascii_fine, H).
  assert (L : forall k, alt = true -> Forall P (nl k)).
  { intros k Ha. constructor; [right; auto|]. apply A. induction k as [|k IH]; [reflexivity|exact IH]. }
  assert (B : forall k op cp l, forallb (fun c => (32 <=? c) && (c <? 127)) (codes op) = true -> forallb (fun c => (32 <=? c) && (c <? 127)) (codes cp) = true ->
    Forall (Forall P) l -> Forall P (body alt k op cp l)).
  { intros k op cp l Ho Hc F. destruct F as [|x l Hx F]; [constructor|]. cbn [body]. apply Forall_app. split; [destruct alt; [apply L; reflexivity|apply A, Ho]|].
    apply Forall_app. split; [exact Hx|]. apply rest_all; [| |exact F].
    - unfold sep. destruct alt; [|apply A; reflexivity]. constructor; [left; left; lia|]. apply L. reflexivity.
    - destruct alt; [|apply Forall_app; split; apply A; assumption]. constructor; [left; left; lia|]. apply Forall_app. split; [apply L; reflexivity|apply A, Hc]. }
  induction t as [n|s|l IH|l IH|n fs IH] using tree_all; intros F k.
  - apply W, dec_fine.
  - apply W, text_fine.
  - apply formed_list in F. cbn [lay]. destruct l as [|x l]; [apply A; reflexivity|]. apply Forall_app. split; [apply A; reflexivity|].
    apply B; [reflexivity|reflexivity|]. apply Forall_forall. intros y Hy. apply in_map_iff in Hy as (z & <- & Hz). rewrite Forall_forall in IH, F. apply IH; auto.
  - apply formed_tuple in F as [_ F]. cbn [lay]. apply Forall_app. split; [apply A; reflexivity|].
    apply B; [reflexivity|reflexivity|]. apply Forall_forall. intros y Hy. apply in_map_iff in Hy as (z & <- & Hz). rewrite Forall_forall in IH, F. apply IH; auto.
  - apply formed_struct in F as (N1 & _ & F). cbn [lay]. apply Forall_app. split; [apply W, name_fine, N1|]. apply Forall_app. split; [apply A; reflexivity|].
    apply B; [reflexivity|reflexivity|]. apply Forall_forall. intros y Hy. apply in_map_iff in Hy as (z & <- & Hz). rewrite Forall_forall in IH, F.
    destruct (F z Hz) as [F1 F2]. apply Forall_app. split; [apply W, name_fine, F1|]. apply Forall_app. split; [apply A; reflexivity|]. apply IH; auto.
Qed.
End Chars.
Lemma ind_0 s : ind 0 s = s.
Proof. induction s as [|c s IH]; [reflexivity|]. unfold ind in *. cbn [flat_map]. rewrite IH. destruct (N.eqb_spec c 10) as [->|]; reflexivity. Qed.
Lemma written_lay h alt t : formed t -> written h alt t = lay h alt 0 t.
Proof. intros F. destruct alt; [rewrite <- pretty_lay by exact F; symmetry; apply ind_0|apply plain_lay, F]. Qed.

(** what is printed tells as much as the view *)
Lemma format_view {A} (show : A -> res tree) h alt x s : format_debug h alt show x = Ok s -> exists v, show x = Ok v /\ s = written h alt v.
Proof. unfold format_debug. destruct (show x) as [v| |]; cbn [bind]; try discriminate. intros [= <-]. exists v. auto. Qed.
Lemma format_same {A B} (f : A -> res tree) (g : B -> res tree) h alt x y s : well f -> well g ->
  format_debug h alt f x = Ok s -> format_debug h alt g y = Ok s -> exists v, f x = Ok v /\ g y = Ok v.
Proof.
  intros Wf Wg E1 E2. apply format_view in E1 as (v & E1 & S1). apply format_view in E2 as (u & E2 & S2).
  exists v. split; [exact E1|]. rewrite E2. f_equal. symmetry. apply (written_inj h alt); [exact (Wf _ _ E1)|exact (Wg _ _ E2)|congruence].
Qed.
Lemma format_lay {A} (f : A -> res tree) h alt x s : well f -> format_debug h alt f x = Ok s ->
  exists v, f x = Ok v /\ s = lay h alt 0 v /\ Forall (fun c => harmless h c \/ alt = true /\ c = 10) s.
Proof.
  intros W E. apply format_view in E as (v & E & ->). exists v. split; [exact E|]. rewrite written_lay by exact (W _ _ E). split; [reflexivity|].
  apply lay_chars. exact (W _ _ E).
Qed.
