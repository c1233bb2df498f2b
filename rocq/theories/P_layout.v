(** Proofs about the characters written by [{:?}] and [{:#?}]. *)
From Coq Require Import String HexadecimalString HexadecimalN DecimalString DecimalN Ascii.
From Verif Require Import Prelude Facts M_debug M_show M_layout S_layout.
From Verif Require P_debug.
Local Open Scope string_scope.
Local Open Scope list_scope.
Local Open Scope N_scope.

(** ** trees *)
Section Induct.
  Variable P : tree -> Prop.
  Hypothesis HN : forall n, P (SNum n).
  Hypothesis HT : forall s, P (SText s).
  Hypothesis HL : forall l, Forall P l -> P (SList l).
  Hypothesis HU : forall l, Forall P l -> P (STuple l).
  Hypothesis HS : forall n fs, Forall (fun p => P (snd p)) fs -> P (SStruct n fs).
  Fixpoint tree_all (t : tree) : P t :=
    match t with
    | SNum n => HN n
    | SText s => HT s
    | SList l => HL l ((fix go l : Forall P l := match l with [] => Forall_nil _ | x :: r => Forall_cons _ (tree_all x) (go r) end) l)
    | STuple l => HU l ((fix go l : Forall P l := match l with [] => Forall_nil _ | x :: r => Forall_cons _ (tree_all x) (go r) end) l)
    | SStruct n fs => HS n fs ((fix go l : Forall (fun p => P (snd p)) l :=
        match l with [] => Forall_nil _ | x :: r => Forall_cons _ (tree_all (snd x)) (go r) end) fs)
    end.
End Induct.

Lemma go_all {A} (Q : A -> Prop) l : (fix go l : Prop := match l with [] => True | x :: r => Q x /\ go r end) l <-> Forall Q l.
Proof.
  induction l as [|x l IH]; [split; [constructor|intros; exact I]|]. rewrite IH. split; [intros [A1 B]; constructor; assumption|].
  intros H. inversion H. split; assumption.
Qed.
Lemma formed_list l : formed (SList l) <-> Forall formed l.
Proof. exact (go_all formed l). Qed.
Lemma formed_tuple l : formed (STuple l) <-> (2 <= length l)%nat /\ Forall formed l.
Proof. cbn [formed]. rewrite (go_all formed l). reflexivity. Qed.
Lemma formed_struct n fs : formed (SStruct n fs) <-> is_name n = true /\ fs <> [] /\ Forall (fun p => is_name (fst p) = true /\ formed (snd p)) fs.
Proof. cbn [formed]. rewrite (go_all (fun p => is_name (fst p) = true /\ formed (snd p)) fs). reflexivity. Qed.

(** ** characters of numbers and names *)
Lemma codes_inj s : forall t, codes s = codes t -> s = t.
Proof.
  induction s as [|c s IH]; intros [|d t] E; cbn [codes] in E; try discriminate; [reflexivity|]. injection E as E1 E2.
  f_equal; [|exact (IH _ E2)]. rewrite <- (ascii_N_embedding c), <- (ascii_N_embedding d), E1. reflexivity.
Qed.
Lemma digits_codes u : forallb digit (codes (DecimalString.NilEmpty.string_of_uint u)) = true.
Proof. induction u as [|u IH|u IH|u IH|u IH|u IH|u IH|u IH|u IH|u IH|u IH]; [reflexivity|..]; exact IH. Qed.
Lemma dec_digits n : exists c r, codes (dec n) = c :: r /\ digit c = true /\ forallb digit (c :: r) = true.
Proof.
  unfold dec. assert (H : codes (DecimalString.NilZero.string_of_uint (N.to_uint n)) <> [] /\
    forallb digit (codes (DecimalString.NilZero.string_of_uint (N.to_uint n))) = true).
  { destruct (N.to_uint n) as [|u|u|u|u|u|u|u|u|u|u]; (split; [discriminate|]); [reflexivity|..]; apply digits_codes. }
  destruct H as [H1 H2]. destruct (codes _) as [|c r]; [congruence|]. exists c, r. split; [reflexivity|].
  split; [|exact H2]. cbn [forallb] in H2. apply andb_prop in H2. apply H2.
Qed.
Definition hexdigit (c : N) : bool := digit c || ((97 <=? c) && (c <=? 102)).
Lemma hexdigits_codes u : forallb hexdigit (codes (HexadecimalString.NilEmpty.string_of_uint u)) = true.
Proof. induction u; [reflexivity|..]; assumption. Qed.
Lemma hex_digits n : forallb hexdigit (codes (hex n)) = true.
Proof. unfold hex. destruct (N.to_hex_uint n); [reflexivity|..]; apply hexdigits_codes. Qed.
Lemma hex_inj a b : hex a = hex b -> a = b.
Proof.
  unfold hex. intros E. apply HexadecimalN.Unsigned.to_uint_inj.
  assert (Z : forall n, N.to_hex_uint n <> Hexadecimal.Nil) by (intros [|p]; [discriminate|exact (HexadecimalPos.Unsigned.to_uint_nonnil p)]).
  apply (f_equal HexadecimalString.NilZero.uint_of_string) in E.
  rewrite !HexadecimalString.NilZero.usu in E by apply Z. injection E. auto.
Qed.

(** ** cutting a text in two *)
Definition heads (P : N -> bool) (l : list N) : Prop := match l with [] => True | c :: _ => P c = false end.
Lemma cut (P : N -> bool) s : forall t a b, forallb P s = true -> forallb P t = true -> heads P a -> heads P b ->
  s ++ a = t ++ b -> s = t /\ a = b.
Proof.
  induction s as [|c s IH]; intros [|d t] a b Hs Ht Ha Hb E; cbn [app forallb] in *.
  - auto.
  - subst a. cbn [heads] in Ha. apply andb_prop in Ht as [Ht _]. congruence.
  - subst b. cbn [heads] in Hb. apply andb_prop in Hs as [Hs _]. congruence.
  - injection E as -> E. apply andb_prop in Hs as [_ Hs]. apply andb_prop in Ht as [_ Ht].
    destruct (IH t a b Hs Ht Ha Hb E) as [-> ->]. auto.
Qed.
Lemma is_name_chars s : is_name s = true -> exists c r, codes s = c :: r /\ letter c = true /\ forallb wordy (c :: r) = true.
Proof.
  unfold is_name. destruct (codes s) as [|c r]; [discriminate|]. intros H. apply andb_prop in H as [H1 H2].
  exists c, r. auto.
Qed.
Lemma cut_name s t a b : is_name s = true -> is_name t = true -> heads wordy a -> heads wordy b ->
  codes s ++ a = codes t ++ b -> s = t /\ a = b.
Proof.
  intros Hs Ht Ha Hb E. apply is_name_chars in Hs as (c & r & Es & _ & Fs). apply is_name_chars in Ht as (c' & r' & Et & _ & Ft).
  rewrite <- Es in Fs. rewrite <- Et in Ft. destruct (cut wordy _ _ a b Fs Ft Ha Hb E) as [E1 E2]. split; [exact (codes_inj _ _ E1)|exact E2].
Qed.
Lemma cut_dec n k a b : heads digit a -> heads digit b -> codes (dec n) ++ a = codes (dec k) ++ b -> n = k /\ a = b.
Proof.
  intros Ha Hb E. destruct (dec_digits n) as (c & r & Es & _ & Fs). destruct (dec_digits k) as (c' & r' & Et & _ & Ft).
  rewrite <- Es in Fs. rewrite <- Et in Ft. destruct (cut digit _ _ a b Fs Ft Ha Hb E) as [E1 E2].
  split; [|exact E2]. apply P_debug.dec_inj, codes_inj. exact E1.
Qed.

(** ** texts *)
Section Text.
Variable higher : N -> bool.
(** how a character is written: as itself, as an escaped letter, or as a number *)
Lemma escape_cases c :
  (escape higher c = [c] /\ c <> 34 /\ c <> 92 /\ c <> 10 /\ shows_itself higher c = true) \/
  (exists x, escape higher c = [92; x] /\ In (c, x) [(0, 48); (9, 116); (13, 114); (10, 110); (34, 34); (92, 92)]) \/
  (escape higher c = [92; 117; 123] ++ codes (hex c) ++ [125] /\ c <> 10).
Proof.
  unfold escape.
  destruct (N.eqb_spec c 0) as [->|H0]; [right; left; exists 48; split; [reflexivity|cbn; tauto]|].
  destruct (N.eqb_spec c 9) as [->|H1]; [right; left; exists 116; split; [reflexivity|cbn; tauto]|].
  destruct (N.eqb_spec c 13) as [->|H2]; [right; left; exists 114; split; [reflexivity|cbn; tauto]|].
  destruct (N.eqb_spec c 10) as [->|H3]; [right; left; exists 110; split; [reflexivity|cbn; tauto]|].
  destruct (N.eqb_spec c 34) as [->|H4]; [right; left; exists 34; split; [reflexivity|cbn; tauto]|].
  destruct (N.eqb_spec c 92) as [->|H5]; [right; left; exists 92; split; [reflexivity|cbn; tauto]|].
  cbn [orb]. destruct (shows_itself higher c) eqn:S; [left; repeat split; assumption|]. right. right. split; [reflexivity|assumption].
Qed.
Lemma escape_inj c d a b : escape higher c ++ a = escape higher d ++ b -> c = d /\ a = b.
Proof.
  intros E. destruct (escape_cases c) as [(C & C1 & C2 & _)|[(x & C & Cx)|(C & _)]];
  destruct (escape_cases d) as [(D & D1 & D2 & _)|[(y & D & Dy)|(D & _)]]; rewrite C, D in E; cbn [app] in E.
  - injection E as -> ->. auto.
  - injection E as E _. congruence.
  - injection E as E _. congruence.
  - injection E as E _. congruence.
  - injection E as E1 E2. subst y b. split; [|reflexivity]. clear - Cx Dy. cbn [In] in *.
    repeat match goal with H : _ \/ _ |- _ => destruct H as [H|H] | H : (_, _) = (_, _) |- _ => injection H as ? ?; subst | H : False |- _ => destruct H end;
      try reflexivity; try discriminate; congruence.
  - injection E as E1 _. subst x. cbn [In] in Cx. intuition discriminate.
  - injection E as E _. congruence.
  - injection E as E1 _. subst y. cbn [In] in Dy. intuition discriminate.
  - injection E as E. rewrite <- !app_assoc in E.
    destruct (cut hexdigit _ _ ([125] ++ a) ([125] ++ b) (hex_digits c) (hex_digits d) eq_refl eq_refl E) as [E1 E2].
    split; [apply hex_inj, codes_inj, E1|]. cbn [app] in E2. injection E2. auto.
Qed.
Lemma escape_head c a b : escape higher c ++ a <> 34 :: b.
Proof.
  intros E. destruct (escape_cases c) as [(C & C1 & _)|[(x & C & Cx)|(C & _)]]; rewrite C in E; cbn [app] in E; injection E as E _; congruence.
Qed.
Lemma cut_text s : forall t a b, flat_map (escape higher) s ++ 34 :: a = flat_map (escape higher) t ++ 34 :: b -> s = t /\ a = b.
Proof.
  induction s as [|c s IH]; intros [|d t] a b E; cbn [flat_map app] in E.
  - injection E. auto.
  - rewrite <- app_assoc in E. symmetry in E. apply escape_head in E. destruct E.
  - rewrite <- app_assoc in E. apply escape_head in E. destruct E.
  - rewrite <- !app_assoc in E. apply escape_inj in E as [-> E]. apply IH in E as [-> ->]. auto.
Qed.

(** first characters *)
Definition kind (c : N) : nat :=
  if digit c then 1%nat else if c =? 34 then 2%nat else if c =? 91 then 3%nat else if c =? 40 then 4%nat else if letter c then 5%nat else 0%nat.
Definition kind_of (t : tree) : nat :=
  match t with SNum _ => 1%nat | SText _ => 2%nat | SList _ => 3%nat | STuple _ => 4%nat | SStruct _ _ => 5%nat end.
Lemma letter_kind c : letter c = true -> kind c = 5%nat.
Proof.
  unfold letter, kind, digit. intros H.
  replace ((48 <=? c) && (c <=? 57)) with false by (symmetry; lia).
  replace (c =? 34) with false by (symmetry; lia). replace (c =? 91) with false by (symmetry; lia). replace (c =? 40) with false by (symmetry; lia).
  fold (letter c). unfold letter. rewrite H. reflexivity.
Qed.
Lemma lay_head alt k t : formed t -> exists c r, lay higher alt k t = c :: r /\ kind c = kind_of t.
Proof.
  destruct t as [n|s|l|l|n fs]; intros F.
  - destruct (dec_digits n) as (c & r & E & D & _). exists c, r. split; [exact E|]. unfold kind. rewrite D. reflexivity.
  - eexists. eexists. split; reflexivity.
  - destruct l; eexists; eexists; split; reflexivity.
  - eexists. eexists. split; reflexivity.
  - apply formed_struct in F as [F _]. apply is_name_chars in F as (c & r & E & L & _). cbn [lay]. rewrite E.
    eexists. eexists. split; [reflexivity|]. exact (letter_kind c L).
Qed.

(** ** reading a sequence *)
Definition inj {A} (ok : A -> Prop) (g : A -> list N) (x : A) : Prop :=
  forall y a b, ok y -> heads digit a -> heads digit b -> g x ++ a = g y ++ b -> x = y /\ a = b.
Section Sequence.
  Context {A : Type} (ok : A -> Prop) (g : A -> list N) (sp cl : list N).
  Hypothesis Hsp : exists c r, sp = c :: r /\ digit c = false.
  Hypothesis Hcl : exists c r, cl = c :: r /\ digit c = false.
  Hypothesis Hd : forall a b, sp ++ a <> cl ++ b.
  Lemma rest_heads l a : heads digit (rest sp cl (map g l) ++ a).
  Proof.
    destruct Hsp as (c & r & E & D). destruct Hcl as (c' & r' & E' & D').
    destruct l as [|x l]; cbn [map rest]; [rewrite E'|rewrite E]; cbn [app heads]; assumption.
  Qed.
  Lemma rest_inj l : Forall (inj ok g) l -> forall l' a b, Forall ok l' ->
    rest sp cl (map g l) ++ a = rest sp cl (map g l') ++ b -> l = l' /\ a = b.
  Proof.
    induction l as [|x l IH]; intros F [|y l'] a b O E; cbn [map rest] in E.
    - apply app_inv_head in E. auto.
    - rewrite <- app_assoc in E. symmetry in E. apply Hd in E. destruct E.
    - rewrite <- app_assoc in E. apply Hd in E. destruct E.
    - rewrite <- !app_assoc in E. apply app_inv_head in E. inversion F as [|? ? F1 F2]. inversion O as [|? ? O1 O2]. subst.
      apply F1 in E as [-> E]; [|exact O1|apply rest_heads|apply rest_heads].
      apply IH in E as [-> ->]; auto.
  Qed.
  Lemma first_inj x l : Forall (inj ok g) (x :: l) -> forall y l' a b, Forall ok (y :: l') ->
    g x ++ rest sp cl (map g l) ++ a = g y ++ rest sp cl (map g l') ++ b -> x = y /\ l = l' /\ a = b.
  Proof.
    intros F y l' a b O E. inversion F as [|? ? F1 F2]. inversion O as [|? ? O1 O2]. subst.
    apply F1 in E as [-> E]; [|exact O1|apply rest_heads|apply rest_heads]. split; [reflexivity|]. exact (rest_inj l F2 l' a b O2 E).
  Qed.
End Sequence.
Lemma sep_other (alt : bool) k op cp : digit (hd 0 (codes op ++ codes cp)) = false -> hd 0 (codes op ++ codes cp) <> 44 ->
  codes cp <> [] -> hd 0 (codes cp) <> 32 ->
  let cl := if alt then 44 :: nl k ++ codes cp else codes op ++ codes cp in
  (exists c r, sep alt k = c :: r /\ digit c = false) /\ (exists c r, cl = c :: r /\ digit c = false) /\
  forall a b, sep alt k ++ a <> cl ++ b.
Proof.
  intros D C N1 N2 cl. unfold sep, cl. split; [destruct alt; eexists; eexists; split; reflexivity|].
  assert (Z : exists c r, codes op ++ codes cp = c :: r).
  { destruct (codes op ++ codes cp) as [|c r] eqn:E; [apply app_eq_nil in E as [_ E]; congruence|exists c, r; reflexivity]. }
  destruct Z as (c & r & Z). rewrite Z in *. cbn [hd] in *. split; [destruct alt; [eexists; eexists; split; reflexivity|exists c, r; auto]|].
  intros a b E. destruct alt.
  - assert (E' : spaces (S k) ++ a = (spaces k ++ codes cp) ++ b) by (injection E; auto). clear E. rename E' into E.
    assert (S' : spaces (S k) = spaces k ++ codes "    ").
    { unfold spaces. clear. induction k as [|k IH]; [reflexivity|]. cbn [repeat concat] in *. rewrite <- app_assoc. f_equal. exact IH. }
    rewrite S' in E. rewrite <- !app_assoc in E. apply app_inv_head in E. destruct (codes cp) as [|d q]; [congruence|].
    cbn [hd] in N2. apply N2. injection E as E _. symmetry. exact E.
  - cbn [app] in E. injection E as E _. congruence.
Qed.
Lemma body_inj {A} (ok : A -> Prop) (g : A -> list N) alt k op cp x l :
  digit (hd 0 (codes op ++ codes cp)) = false -> hd 0 (codes op ++ codes cp) <> 44 ->
  codes cp <> [] -> hd 0 (codes cp) <> 32 -> Forall (inj ok g) (x :: l) -> forall y l' a b, Forall ok (y :: l') ->
  body alt k op cp (map g (x :: l)) ++ a = body alt k op cp (map g (y :: l')) ++ b -> x :: l = y :: l' /\ a = b.
Proof.
  intros D C N1 N2 F y l' a b O E. destruct (sep_other alt k op cp D C N1 N2) as (H1 & H2 & H3).
  cbn [body map] in E. rewrite <- !app_assoc in E. apply app_inv_head in E.
  destruct (first_inj ok g _ _ H1 H2 H3 x l F y l' a b O E) as (-> & -> & ->). auto.
Qed.

Lemma lay_inj alt t : formed t -> forall k, inj formed (lay higher alt k) t.
Proof.
  induction t as [n|s|l IH|l IH|n fs IH] using tree_all; intros F k u a b Fu Ha Hb E;
    destruct (lay_head alt k _ F) as (c & r & E1 & K1); destruct (lay_head alt k u Fu) as (c' & r' & E2 & K2);
    (assert (K : kind_of u = kind_of (SNum 0) \/ kind_of u <> kind_of (SNum 0)) by lia);
    pose proof E as E'; rewrite E1, E2 in E'; cbn [app] in E'; injection E' as E' _; rewrite <- E', K1 in K2; clear K E1 E2 E' K1 c r c' r';
    destruct u as [n'|s'|l'|l'|n' fs']; try discriminate; clear K2.
  - cbn [lay] in E. apply cut_dec in E as [-> E]; auto.
  - cbn [lay text_chars] in E. unfold text_chars in E. cbn [app] in E. injection E as E. rewrite <- !app_assoc in E. cbn [app] in E.
    apply cut_text in E as [-> E]. auto.
  - apply formed_list in F, Fu. cbn [lay] in E. destruct l as [|x l], l' as [|y l'].
    + apply app_inv_head in E. auto.
    + exfalso. cbn [map body] in E. inversion Fu as [|? ? Fy _]; subst. destruct (lay_head alt (S k) y Fy) as (c & r & Ec & Kc). rewrite Ec in E.
      destruct alt; cbn in E; [discriminate|]. injection E as E _. subst c. destruct y; discriminate.
    + exfalso. cbn [map body] in E. inversion F as [|? ? Fy _]; subst. destruct (lay_head alt (S k) x Fy) as (c & r & Ec & Kc). rewrite Ec in E.
      destruct alt; cbn in E; [discriminate|]. injection E as E _. subst c. destruct x; discriminate.
    + rewrite <- !app_assoc in E. apply app_inv_head in E. apply (body_inj formed) in E as [-> ->]; auto; try discriminate.
      rewrite Forall_forall in *. intros z Hz. apply IH; auto.
  - apply formed_tuple in F as [L F]. apply formed_tuple in Fu as [L' Fu]. cbn [lay] in E.
    destruct l as [|x l]; [cbn in L; lia|]. destruct l' as [|y l']; [cbn in L'; lia|].
    rewrite <- !app_assoc in E. apply app_inv_head in E. apply (body_inj formed) in E as [-> ->]; auto; try discriminate.
    rewrite Forall_forall in *. intros z Hz. apply IH; auto.
  - apply formed_struct in F as (N1 & N2 & F). apply formed_struct in Fu as (N1' & N2' & Fu). cbn [lay] in E. rewrite <- !app_assoc in E.
    apply cut_name in E as [-> E]; [|assumption|assumption|reflexivity|reflexivity]. apply app_inv_head in E.
    destruct fs as [|x fs]; [congruence|]. destruct fs' as [|y fs']; [congruence|].
    apply (body_inj (fun p => is_name (fst p) = true /\ formed (snd p))) in E as [-> ->]; auto; try discriminate.
    clear E. rewrite Forall_forall in *. intros [f z] Hz [f' z'] p q [O1 O2] Hp Hq E. cbn [fst snd] in *. rewrite <- !app_assoc in E.
    destruct (F _ Hz) as [F1 F2]. cbn [fst snd] in *. apply cut_name in E as [-> E]; [|assumption|assumption|reflexivity|reflexivity].
    apply app_inv_head in E. destruct (IH _ Hz F2 (S k) z' p q O2 Hp Hq E) as [E1 ->]. cbn [snd] in E1. subst z'. auto.
Qed.
End Text.

(** ** from the builders of std::fmt to the layout *)
Section Walk.
  Variable e : bool -> list N -> list N.
  Variable e' : bool -> string -> list N -> list N.
  Variable fin : bool -> list N.
  Variable w : tree -> list N.
  Fixpoint entries (has : bool) (l : list tree) : list N :=
    match l with [] => [] | x :: l' => e has (w x) ++ entries true l' end.
  Fixpoint members (has : bool) (l : list (string * tree)) : list N :=
    match l with [] => fin has | (n, x) :: l' => e' has n (w x) ++ members true l' end.
End Walk.
Lemma written_list h alt l : written h alt (SList l) = codes "[" ++ entries (list_entry alt) (written h alt) false l ++ codes "]".
Proof. reflexivity. Qed.
Lemma written_tuple h alt l : written h alt (STuple l) = entries (tuple_field alt) (written h alt) false l ++ tuple_finish alt (length l).
Proof. reflexivity. Qed.
Lemma written_struct h alt n fs : written h alt (SStruct n fs) = codes n ++ members (struct_field alt) (struct_finish alt) (written h alt) false fs.
Proof. reflexivity. Qed.

Lemma map_ext_all {A B} (f g : A -> B) l : Forall (fun x => f x = g x) l -> map f l = map g l.
Proof. induction 1 as [|x l E F IH]; [reflexivity|]. cbn [map]. rewrite E, IH. reflexivity. Qed.

Lemma entries_plain (e : bool -> list N -> list N) w l tail : (forall v, e true v = [44; 32] ++ v) ->
  entries e w true l ++ tail = rest [44; 32] tail (map w l).
Proof.
  intros He. induction l as [|x l IH]; [reflexivity|]. cbn [entries map rest]. rewrite He, <- !app_assoc, IH. reflexivity.
Qed.
Lemma members_plain w l :
  members (struct_field false) (struct_finish false) w true l = rest [44; 32] [32; 125] (map (fun p => codes (fst p) ++ codes ": " ++ w (snd p)) l).
Proof.
  induction l as [|[n x] l IH]; [reflexivity|]. cbn [members map rest fst snd]. rewrite <- IH. unfold struct_field. cbn [codes app].
  rewrite <- !app_assoc. reflexivity.
Qed.
Lemma rest_ext sp cl l m : l = m -> rest sp cl l = rest sp cl m.
Proof. intros ->. reflexivity. Qed.

Lemma plain_lay h t : formed t -> forall k, written h false t = lay h false k t.
Proof.
  induction t as [n|s|l IH|l IH|n fs IH] using tree_all; intros F k.
  - reflexivity.
  - reflexivity.
  - apply formed_list in F. rewrite written_list. destruct l as [|x l]; [reflexivity|]. cbn [lay map body entries].
    assert (M : map (lay h false (S k)) (x :: l) = map (written h false) (x :: l)).
    { apply map_ext_all. rewrite Forall_forall in *. intros y Hy. symmetry. apply IH; auto. }
    cbn [map] in M. injection M as M1 M2. rewrite M1, M2. f_equal. rewrite <- app_assoc, entries_plain by reflexivity. reflexivity.
  - apply formed_tuple in F as [L F]. rewrite written_tuple. destruct l as [|x [|y l]]; [cbn in L; lia|cbn in L; lia|].
    assert (M : map (lay h false (S k)) (x :: y :: l) = map (written h false) (x :: y :: l)).
    { apply map_ext_all. rewrite Forall_forall in *. intros z Hz. symmetry. apply IH; auto. }
    cbn [map] in M. injection M as M1 M2 M3. cbn [lay map body entries]. rewrite M1, M2, M3. cbn [length tuple_finish].
    change (tuple_field false true (written h false y) ++ entries (tuple_field false) (written h false) true l)
      with (entries (tuple_field false) (written h false) true (y :: l)).
    rewrite <- app_assoc, entries_plain by reflexivity. reflexivity.
  - apply formed_struct in F as (_ & N2 & F). rewrite written_struct. destruct fs as [|[f x] fs]; [congruence|].
    assert (M : map (fun p => codes (fst p) ++ codes ": " ++ lay h false (S k) (snd p)) ((f, x) :: fs) =
      map (fun p => codes (fst p) ++ codes ": " ++ written h false (snd p)) ((f, x) :: fs)).
    { apply map_ext_all. rewrite Forall_forall in *. intros z Hz. do 2 f_equal. symmetry. apply IH; auto. apply (F _ Hz). }
    cbn [lay]. rewrite M. cbn [map body members]. rewrite members_plain. unfold struct_field. cbn [codes app fst snd]. rewrite <- !app_assoc. reflexivity.
Qed.

(** the indentation of [k] levels *)
Definition ind (k : nat) (s : list N) : list N := flat_map (fun c => if c =? 10 then nl k else [c]) s.
Lemma ind_app k a b : ind k (a ++ b) = ind k a ++ ind k b.
Proof. apply flat_map_app. Qed.
Definition smooth (s : list N) : Prop := forallb (fun c => negb (c =? 10)) s = true.
Lemma ind_smooth k s : smooth s -> ind k s = s.
Proof.
  unfold smooth. induction s as [|c s IH]; [reflexivity|]. cbn [forallb]. intros H. apply andb_prop in H as [H1 H2].
  unfold ind in *. cbn [flat_map]. destruct (c =? 10); [discriminate|]. cbn [app]. f_equal. apply IH, H2.
Qed.
Lemma pad_ind s : forall b, pad b (s ++ [10]) = (if b then codes "    " else []) ++ ind 1 s ++ [10].
Proof.
  induction s as [|c s IH]; intros b; [reflexivity|]. cbn [pad app ind flat_map]. f_equal. rewrite IH. cbn [flat_map].
  destruct (N.eqb_spec c 10) as [->|]; reflexivity.
Qed.
Lemma spaces_smooth k : smooth (spaces k).
Proof. induction k as [|k IH]; [reflexivity|]. exact IH. Qed.
Lemma spaces_more k : spaces k ++ codes "    " = spaces (S k).
Proof. unfold spaces. induction k as [|k IH]; [reflexivity|]. cbn [repeat concat] in *. rewrite <- app_assoc. f_equal. exact IH. Qed.
Lemma ind_ind k s : ind k (ind 1 s) = ind (S k) s.
Proof.
  induction s as [|c s IH]; [reflexivity|]. change (ind 1 (c :: s)) with ((if c =? 10 then nl 1 else [c]) ++ ind 1 s).
  rewrite ind_app, IH. change (ind (S k) (c :: s)) with ((if c =? 10 then nl (S k) else [c]) ++ ind (S k) s). f_equal.
  destruct (N.eqb_spec c 10) as [->|H]; unfold ind; cbn [flat_map app].
  - change (nl 1) with (10 :: codes "    "). cbn [flat_map]. rewrite N.eqb_refl.
    change (flat_map (fun c => if c =? 10 then nl k else [c]) (codes "    ")) with (codes "    "). unfold nl. cbn [app]. f_equal. apply spaces_more.
  - rewrite (proj2 (N.eqb_neq c 10) H). reflexivity.
Qed.
Lemma ind_nl k s : ind k (10 :: s) = nl k ++ ind k s.
Proof. reflexivity. Qed.
(** a padded line behind a line end *)
Lemma ind_line k s t : nl k ++ ind k (pad true (s ++ [10]) ++ t) = nl (S k) ++ ind (S k) s ++ nl k ++ ind k t.
Proof.
  rewrite pad_ind, !ind_app, ind_ind. change (ind k (codes "    ")) with (codes "    "). change (ind k [10]) with (nl k ++ []).
  rewrite app_nil_r, <- !app_assoc. unfold nl at 1. cbn [app]. rewrite app_assoc, spaces_more. reflexivity.
Qed.
Lemma name_smooth n : is_name n = true -> smooth (codes n).
Proof.
  intros H. apply is_name_chars in H as (c & r & -> & _ & F). unfold smooth. apply forallb_forall. intros x Hx.
  rewrite forallb_forall in F. specialize (F x Hx). destruct (N.eqb_spec x 10) as [->|]; [discriminate|reflexivity].
Qed.
Lemma dec_smooth n : smooth (codes (dec n)).
Proof.
  destruct (dec_digits n) as (c & r & -> & _ & F). unfold smooth. apply forallb_forall. intros x Hx.
  rewrite forallb_forall in F. specialize (F x Hx). destruct (N.eqb_spec x 10) as [->|]; [discriminate|reflexivity].
Qed.
Lemma text_smooth h s : smooth (text_chars h s).
Proof.
  unfold smooth, text_chars. rewrite !forallb_app. apply andb_true_intro. split; [reflexivity|]. apply andb_true_intro. split; [|reflexivity]. apply forallb_forall. intros x Hx.
  apply in_flat_map in Hx as (c & _ & Hx). destruct (escape_cases h c) as [(E & _ & _ & N & _)|[(y & E & Hy)|(E & N)]]; rewrite E in Hx.
  - destruct Hx as [<-|[]]. apply negb_true_iff, N.eqb_neq. exact N.
  - destruct Hx as [<-|[<-|[]]]; [reflexivity|]. cbn [In] in Hy. 
    repeat match goal with H : _ \/ _ |- _ => destruct H as [H|H] | H : (_, _) = (_, _) |- _ => injection H as ? ?; subst | H : False |- _ => destruct H end; reflexivity.
  - rewrite !in_app_iff in Hx. destruct Hx as [Hx|[Hx|[<-|[]]]]; [|..|reflexivity].
    + cbn [In] in Hx. destruct Hx as [<-|[<-|[<-|[]]]]; reflexivity.
    + pose proof (hex_digits c) as F. rewrite forallb_forall in F. specialize (F x Hx). destruct (N.eqb_spec x 10) as [->|]; [discriminate|reflexivity].
Qed.

Lemma entries_pretty (e : bool -> list N -> list N) w k l tail : (forall v, e true v = pad true (v ++ codes "," ++ [10])) -> smooth tail ->
  44 :: nl k ++ ind k (entries e w true l ++ tail) = rest (44 :: nl (S k)) (44 :: nl k ++ tail) (map (fun x => ind (S k) (w x)) l).
Proof.
  intros He Ht. induction l as [|x l IH]; cbn [entries map rest app]; [rewrite ind_smooth by exact Ht; reflexivity|].
  f_equal. rewrite He, <- app_assoc, (app_assoc (w x)), ind_line, ind_app. f_equal. rewrite <- app_assoc. f_equal. exact IH.
Qed.
Lemma members_pretty w k l : Forall (fun p => is_name (fst p) = true) l ->
  44 :: nl k ++ ind k (members (struct_field true) (struct_finish true) w true l) =
  rest (44 :: nl (S k)) (44 :: nl k ++ codes "}") (map (fun p => codes (fst p) ++ codes ": " ++ ind (S k) (w (snd p))) l).
Proof.
  induction 1 as [|[n x] l Hn F IH]; [reflexivity|]. cbn [members map rest app fst snd] in *.
  f_equal. unfold struct_field. cbn [app].
  replace (codes n ++ codes ": " ++ w x ++ codes "," ++ [10]) with ((codes n ++ codes ": " ++ w x ++ codes ",") ++ [10]) by (rewrite <- !app_assoc; reflexivity).
  rewrite ind_line, !ind_app, (ind_smooth _ (codes n)) by (apply name_smooth, Hn). f_equal. rewrite <- !app_assoc. f_equal. f_equal. f_equal. exact IH.
Qed.
Lemma pretty_lay h t : formed t -> forall k, ind k (written h true t) = lay h true k t.
Proof.
  induction t as [n|s|l IH|l IH|n fs IH] using tree_all; intros F k.
  - apply ind_smooth, dec_smooth.
  - apply ind_smooth, text_smooth.
  - apply formed_list in F. rewrite written_list. destruct l as [|x l]; [reflexivity|]. cbn [lay map body entries].
    assert (M : map (lay h true (S k)) (x :: l) = map (fun x => ind (S k) (written h true x)) (x :: l)).
    { apply map_ext_all. rewrite Forall_forall in *. intros y Hy. symmetry. apply IH; auto. }
    cbn [map] in M. injection M as M1 M2. rewrite M1, M2. rewrite ind_app. change (ind k (codes "[")) with (codes "["). f_equal.
    unfold list_entry at 1. rewrite <- !app_assoc. cbn [app]. rewrite ind_nl, (app_assoc (written h true x)), ind_line. f_equal.
    rewrite ind_app, <- app_assoc. f_equal. change (ind (S k) (codes ",")) with [44]. cbn [app]. apply entries_pretty; reflexivity.
  - apply formed_tuple in F as [L F]. rewrite written_tuple. destruct l as [|x [|y l]]; [cbn in L; lia|cbn in L; lia|].
    assert (M : map (lay h true (S k)) (x :: y :: l) = map (fun x => ind (S k) (written h true x)) (x :: y :: l)).
    { apply map_ext_all. rewrite Forall_forall in *. intros z Hz. symmetry. apply IH; auto. }
    cbn [lay]. rewrite M. remember (y :: l) as r. cbn [map body entries].
    replace (tuple_finish true (length (x :: r))) with (codes ")") by (subst r; reflexivity).
    unfold tuple_field at 1. rewrite <- !app_assoc. rewrite ind_app. change (ind k (codes "(")) with (codes "("). f_equal.
    cbn [app]. rewrite ind_nl, (app_assoc (written h true x)), ind_line. f_equal.
    rewrite ind_app, <- app_assoc. f_equal. change (ind (S k) (codes ",")) with [44]. cbn [app]. apply entries_pretty; reflexivity.
  - apply formed_struct in F as (N1 & N2 & F). rewrite written_struct. destruct fs as [|[f x] fs]; [congruence|].
    assert (M : map (fun p => codes (fst p) ++ codes ": " ++ lay h true (S k) (snd p)) ((f, x) :: fs) =
      map (fun p => codes (fst p) ++ codes ": " ++ ind (S k) (written h true (snd p))) ((f, x) :: fs)).
    { apply map_ext_all. rewrite Forall_forall in *. intros z Hz. do 2 f_equal. symmetry. apply IH; auto. apply (F _ Hz). }
    cbn [lay]. rewrite M. cbn [map body members fst snd]. rewrite ind_app, (ind_smooth _ (codes n)) by (apply name_smooth, N1). f_equal.
    unfold struct_field at 1. rewrite <- !app_assoc. rewrite ind_app. change (ind k (codes " {")) with (codes " {"). f_equal.
    cbn [app]. rewrite ind_nl.
    replace (codes f ++ codes ": " ++ written h true x ++ codes "," ++ [10]) with ((codes f ++ codes ": " ++ written h true x ++ codes ",") ++ [10])
      by (rewrite <- !app_assoc; reflexivity).
    inversion F as [|? ? [Ff _] F']. subst.
    rewrite ind_line, !ind_app, (ind_smooth _ (codes f)) by (apply name_smooth, Ff). f_equal. rewrite <- !app_assoc. f_equal. f_equal. f_equal.
    apply members_pretty. eapply Forall_impl; [|exact F']. intros p Hp. apply Hp.
Qed.

Theorem written_inj h alt t u : formed t -> formed u -> written h alt t = written h alt u -> t = u.
Proof.
  intros Ft Fu E. assert (L : lay h alt 0 t = lay h alt 0 u).
  { destruct alt; [rewrite <- !pretty_lay by assumption|rewrite <- !plain_lay by assumption]; rewrite E; reflexivity. }
  apply (lay_inj h alt t Ft 0%nat u [] [] Fu I I). rewrite L. reflexivity.
Qed.
