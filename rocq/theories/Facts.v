(** General lemmas and tactics about [Prelude] and [Layout]. *)
From Verif Require Import Prelude Layout.

(** linear arithmetic with division and modulo by constants *)
Ltac dlia := zify; Z.div_mod_to_equations; lia.

(** * bind *)
Lemma bind_ok {A B} (a : A) (k : A -> res B) : bind (Ok a) k = k a.
Proof. reflexivity. Qed.

Lemma bind_inv {A B} (e : res A) (k : A -> res B) (b : B) :
  bind e k = Ok b -> exists a, e = Ok a /\ k a = Ok b.
Proof. destruct e; cbn; intros H; try discriminate; eauto. Qed.

Lemma bind_assoc {A B C} (e : res A) (k : A -> res B) (k2 : B -> res C) :
  bind (bind e k) k2 = bind e (fun a => bind (k a) k2).
Proof. destruct e; reflexivity. Qed.

Lemma bind_panic_inv {A B} (e : res A) (k : A -> res B) :
  bind e k = Panic -> e = Panic \/ exists a, e = Ok a /\ k a = Panic.
Proof. destruct e; cbn; intros H; try discriminate; eauto. Qed.

(** * bits *)
Lemma testbit_small v b k : v < b -> (b <=? 2 ^ k) = true -> N.testbit v k = false.
Proof.
  intros Hv Hb. apply N.leb_le in Hb.
  destruct (N.eq_dec v 0) as [->|Hn]; [apply N.bits_0|].
  apply N.bits_above_log2. apply N.log2_lt_pow2; lia.
Qed.

Lemma testbit_mod v b j k : b = 2 ^ j -> N.testbit (v mod b) k = (k <? j) && N.testbit v k.
Proof.
  intros ->. destruct (N.ltb_spec k j).
  - rewrite N.mod_pow2_bits_low by assumption. reflexivity.
  - rewrite N.mod_pow2_bits_high by assumption. reflexivity.
Qed.

Lemma testbit_div v b j k : b = 2 ^ j -> N.testbit (v / b) k = N.testbit v (k + j).
Proof. intros ->. apply N.div_pow2_bits. Qed.

Lemma testbit_mul v b j k : b = 2 ^ j ->
  N.testbit (v * b) k = if k <? j then false else N.testbit v (k - j).
Proof.
  intros ->. rewrite <- N.shiftl_mul_pow2. destruct (N.ltb_spec k j).
  - apply N.shiftl_spec_low; assumption.
  - apply N.shiftl_spec_high'; assumption.
Qed.

Lemma testbit_shiftl v j k :
  N.testbit (N.shiftl v j) k = if k <? j then false else N.testbit v (k - j).
Proof.
  destruct (N.ltb_spec k j).
  - apply N.shiftl_spec_low; assumption.
  - apply N.shiftl_spec_high'; assumption.
Qed.

Lemma N_of_bits_app l1 l2 :
  N_of_bits (l1 ++ l2) = N_of_bits l1 * 2 ^ N.of_nat (length l2) + N_of_bits l2.
Proof.
  unfold N_of_bits. rewrite fold_left_app.
  generalize (fold_left (fun a b => 2 * a + N.b2n b) l1 0) as x.
  induction l2 as [|b l2 IH] using rev_ind; intros x.
  - cbn. lia.
  - rewrite !fold_left_app, app_length. cbn [fold_left length].
    rewrite IH. replace (N.of_nat (length l2 + 1)) with (N.succ (N.of_nat (length l2))) by lia.
    rewrite N.pow_succ_r'. lia.
Qed.

Lemma N_of_bits_snoc l b : N_of_bits (l ++ [b]) = 2 * N_of_bits l + N.b2n b.
Proof. unfold N_of_bits. rewrite fold_left_app. reflexivity. Qed.

Lemma N_of_bits_lt l : N_of_bits l < 2 ^ N.of_nat (length l).
Proof.
  induction l as [|b l IH] using rev_ind; [cbn; lia|].
  rewrite N_of_bits_snoc, app_length. cbn [length].
  replace (N.of_nat (length l + 1)) with (N.succ (N.of_nat (length l))) by lia.
  rewrite N.pow_succ_r'. destruct b; cbn [N.b2n]; lia.
Qed.

Lemma testbit_N_of_bits l k : N.testbit (N_of_bits l) k = nth (N.to_nat k) (rev l) false.
Proof.
  revert k. induction l as [|b l IH] using rev_ind; intros k.
  - cbn. rewrite N.bits_0. destruct (N.to_nat k); reflexivity.
  - rewrite N_of_bits_snoc, rev_app_distr. cbn [rev app].
    destruct (N.eq_dec k 0) as [->|Hk].
    + cbn [N.to_nat nth]. rewrite N.add_comm. destruct b; cbn [N.b2n].
      * rewrite N.add_comm. apply N.testbit_odd_0.
      * rewrite N.add_0_l. apply N.testbit_even_0.
    + replace (N.to_nat k) with (S (N.to_nat (N.pred k))) by lia. cbn [nth].
      replace k with (N.succ (N.pred k)) at 1 by lia.
      destruct b; cbn [N.b2n].
      * rewrite N.testbit_odd_succ by lia. apply IH.
      * rewrite N.add_0_r. rewrite N.testbit_even_succ by lia. apply IH.
Qed.

Lemma bits_of_length w v : length (bits_of w v) = w.
Proof. induction w; cbn; congruence. Qed.

Lemma N_of_bits_bits_of w v : N_of_bits (bits_of w v) = v mod 2 ^ N.of_nat w.
Proof.
  induction w as [|w IH]; [cbn; rewrite N.mod_1_r; reflexivity|].
  cbn [bits_of]. change (?b :: ?r) with ([b] ++ r). rewrite N_of_bits_app, IH, bits_of_length.
  change (N_of_bits [N.testbit v (N.of_nat w)]) with (2 * 0 + N.b2n (N.testbit v (N.of_nat w))).
  replace (N.of_nat (S w)) with (N.succ (N.of_nat w)) by lia.
  rewrite N.testbit_spec' by lia. rewrite N.pow_succ_r'.
  rewrite (N.mul_comm 2 (2 ^ N.of_nat w)).
  rewrite N.mod_mul_r by (try apply N.pow_nonzero; lia).
  lia.
Qed.

Lemma bits_of_small w v : v < 2 ^ N.of_nat w -> N_of_bits (bits_of w v) = v.
Proof. intros H. rewrite N_of_bits_bits_of. apply N.mod_small. assumption. Qed.

Lemma bits_of_mod w v : bits_of w (v mod 2 ^ N.of_nat w) = bits_of w v.
Proof.
  assert (H : forall n, (n <= w)%nat -> bits_of n (v mod 2 ^ N.of_nat w) = bits_of n v).
  { induction n as [|n IH]; intros Hn; [reflexivity|].
    cbn [bits_of]. rewrite IH by lia. rewrite N.mod_pow2_bits_low by lia. reflexivity. }
  apply H. lia.
Qed.

(** extensionality on the low bits *)
Fixpoint all_lt (n : nat) (P : N -> Prop) : Prop :=
  match n with O => True | S n' => P (N.of_nat n') /\ all_lt n' P end.

Lemma all_lt_spec n P : all_lt n P -> forall k, k < N.of_nat n -> P k.
Proof.
  induction n as [|n IH]; cbn [all_lt]; intros H k Hk; [lia|].
  destruct H as [H1 H2]. destruct (N.eq_dec k (N.of_nat n)) as [->|]; [assumption|].
  apply IH; [assumption|lia].
Qed.

Lemma N_ext (n : nat) x y :
  x < 2 ^ N.of_nat n -> y < 2 ^ N.of_nat n ->
  all_lt n (fun k => N.testbit x k = N.testbit y k) -> x = y.
Proof.
  intros Hx Hy H. apply N.bits_inj. intros k.
  destruct (N.ltb_spec k (N.of_nat n)) as [Hk|Hk].
  - exact (all_lt_spec n _ H k Hk).
  - assert (Hp : (2 ^ N.of_nat n <=? 2 ^ k) = true).
    { apply N.leb_le. apply N.pow_le_mono_r; lia. }
    rewrite (testbit_small x _ k Hx Hp), (testbit_small y _ k Hy Hp). reflexivity.
Qed.

Ltac is_lit n :=
  match n with
  | N0 => idtac
  | Npos ?p => let r := eval vm_compute in p in constr_eq r p
  end.

Ltac is_lit_nat n :=
  match n with
  | O => idtac
  | S ?p => is_lit_nat p
  end.

Ltac pow_log b :=
  let r := eval vm_compute in (N.log2 b) in
  constr:(r).

(** evaluate testbit of bit expressions at literal positions *)
Ltac tb1 :=
  match goal with
  | |- context [N.testbit (N.lor ?a ?b) ?k] => rewrite (N.lor_spec a b k)
  | |- context [N.testbit (N.land ?a ?b) ?k] => rewrite (N.land_spec a b k)
  | |- context [N.testbit (N.lxor ?a ?b) ?k] => rewrite (N.lxor_spec a b k)
  | |- context [N.testbit (N.shiftr ?a ?n) ?k] =>
      is_lit n; is_lit k; rewrite (N.shiftr_spec' a n k);
      let r := eval vm_compute in (k + n) in change (k + n) with r
  | |- context [N.testbit (N.shiftl ?a ?n) ?k] =>
      is_lit n; is_lit k; rewrite (testbit_shiftl a n k);
      let c := eval vm_compute in (k <? n) in change (k <? n) with c;
      let r := eval vm_compute in (k - n) in change (k - n) with r;
      cbv iota
  | |- context [N.testbit (?a mod ?b) ?k] =>
      is_lit b; is_lit k;
      let j := pow_log b in
      rewrite (testbit_mod a b j k) by reflexivity;
      let c := eval vm_compute in (k <? j) in change (k <? j) with c;
      rewrite ?andb_true_l, ?andb_false_l
  | |- context [N.testbit (?a / ?b) ?k] =>
      is_lit b; is_lit k;
      let j := pow_log b in
      rewrite (testbit_div a b j k) by reflexivity;
      let r := eval vm_compute in (k + j) in change (k + j) with r
  | |- context [N.testbit (?a * ?b) ?k] =>
      is_lit b; is_lit k;
      let j := pow_log b in
      rewrite (testbit_mul a b j k) by reflexivity;
      let c := eval vm_compute in (k <? j) in change (k <? j) with c;
      let r := eval vm_compute in (k - j) in change (k - j) with r;
      cbv iota
  | |- context [N.testbit (N_of_bits ?l) ?k] =>
      is_lit k; rewrite (testbit_N_of_bits l k);
      let r := eval vm_compute in (N.to_nat k) in change (N.to_nat k) with r;
      cbn [rev app nth]
  | |- context [N.testbit ?a ?k] =>
      is_lit a; is_lit k;
      let r := eval vm_compute in (N.testbit a k) in change (N.testbit a k) with r
  | H : ?v < ?b |- context [N.testbit ?v ?k] =>
      is_lit b; is_lit k; rewrite (testbit_small v b k H) by reflexivity
  end.
Ltac tbs := repeat (progress (repeat tb1;
   rewrite ?andb_true_l, ?andb_false_l, ?andb_true_r, ?andb_false_r,
   ?orb_true_l, ?orb_false_l, ?orb_true_r, ?orb_false_r, ?xorb_false_l, ?xorb_false_r)).

Ltac fold_nat_lits :=
  repeat match goal with
  | |- context [N.of_nat ?k] => is_lit_nat k; let r := eval vm_compute in (N.of_nat k) in change (N.of_nat k) with r
  end.

Ltac bool_cases :=
  tbs;
  first [ reflexivity
        | exact I
        | repeat match goal with |- context [N.testbit ?a ?k] => destruct (N.testbit a k) end;
          reflexivity ].

(** [blast n]: proves an equation between numbers below 2^n bit by bit *)
Ltac blast_pre n :=
  apply (N_ext n);
  [ | | cbn [all_lt]; fold_nat_lits; repeat (match goal with |- _ /\ _ => split end) ].

(** bounds *)
Lemma lor_lt n a b : a < 2 ^ n -> b < 2 ^ n -> N.lor a b < 2 ^ n.
Proof.
  intros Ha Hb. destruct (N.eq_dec (N.lor a b) 0) as [E|E].
  - rewrite E. apply N.neq_0_lt_0. apply N.pow_nonzero. lia.
  - apply N.log2_lt_pow2; [lia|]. rewrite N.log2_lor.
    apply N.max_lub_lt.
    + destruct (N.eq_dec a 0) as [->|]; [| apply N.log2_lt_pow2; lia].
      cbn. destruct (N.eq_dec b 0) as [->|]; [exfalso; apply E; reflexivity|].
      apply N.log2_lt_pow2 in Hb; lia.
    + destruct (N.eq_dec b 0) as [->|]; [| apply N.log2_lt_pow2; lia].
      cbn. destruct (N.eq_dec a 0) as [->|]; [exfalso; apply E; reflexivity|].
      apply N.log2_lt_pow2 in Ha; lia.
Qed.

Lemma lxor_lt n a b : a < 2 ^ n -> b < 2 ^ n -> N.lxor a b < 2 ^ n.
Proof.
  intros Ha Hb. destruct (N.eq_dec (N.lxor a b) 0) as [E|E].
  - rewrite E. apply N.neq_0_lt_0. apply N.pow_nonzero. lia.
  - apply N.log2_lt_pow2; [lia|].
    apply N.le_lt_trans with (N.max (N.log2 a) (N.log2 b)); [apply N.log2_lxor|].
    apply N.max_lub_lt.
    + destruct (N.eq_dec a 0) as [->|]; [| apply N.log2_lt_pow2; lia].
      cbn. destruct (N.eq_dec b 0) as [->|]; [exfalso; apply E; reflexivity|].
      apply N.log2_lt_pow2 in Hb; lia.
    + destruct (N.eq_dec b 0) as [->|]; [| apply N.log2_lt_pow2; lia].
      cbn. destruct (N.eq_dec a 0) as [->|]; [exfalso; apply E; reflexivity|].
      apply N.log2_lt_pow2 in Ha; lia.
Qed.

Lemma land_le_r a b : N.land a b <= b.
Proof.
  rewrite N.land_comm. destruct (N.eq_dec b 0) as [->|]; [rewrite N.land_0_l; lia|].
  apply N.ldiff_le. apply N.bits_inj_0. intros k.
  rewrite N.ldiff_spec, N.land_spec. destruct (N.testbit b k), (N.testbit a k); reflexivity.
Qed.

Lemma land_lt_r a b n : b < n -> N.land a b < n.
Proof. intros. pose proof (land_le_r a b). lia. Qed.

Lemma land_lt_l a b n : a < n -> N.land a b < n.
Proof. intros. rewrite N.land_comm. apply land_lt_r. assumption. Qed.

Lemma shiftr_lt a k n : a < n -> N.shiftr a k < n.
Proof.
  intros. rewrite N.shiftr_div_pow2.
  apply N.le_lt_trans with a; [|assumption].
  apply N.div_le_upper_bound; [apply N.pow_nonzero; lia|].
  assert (1 <= 2 ^ k) by (assert (2 ^ k <> 0) by (apply N.pow_nonzero; lia); lia). nia.
Qed.

Lemma shiftr_lt_pow a k n b : a < b -> b = 2 ^ (n + k) -> N.shiftr a k < 2 ^ n.
Proof.
  intros H ->. rewrite N.shiftr_div_pow2. apply N.div_lt_upper_bound.
  - apply N.pow_nonzero; lia.
  - rewrite <- N.pow_add_r. rewrite (N.add_comm k n). assumption.
Qed.

Lemma shiftl_lt_pow a k n j : a < 2 ^ j -> (j + k <=? n) = true -> N.shiftl a k < 2 ^ n.
Proof.
  intros H Hn. apply N.leb_le in Hn. rewrite N.shiftl_mul_pow2.
  apply N.lt_le_trans with (2 ^ j * 2 ^ k).
  - apply N.mul_lt_mono_pos_r; [|assumption]. apply N.neq_0_lt_0, N.pow_nonzero; lia.
  - rewrite <- N.pow_add_r. apply N.pow_le_mono_r; lia.
Qed.

Lemma mod_lt_b a b : b <> 0 -> a mod b < b.
Proof. apply N.mod_lt. Qed.

(** * lists *)
Lemma get_nth {A} (l : list A) i d : (i < length l)%nat -> get l i = Ok (nth i l d).
Proof.
  intros H. unfold get. rewrite (nth_error_nth' l d H). reflexivity.
Qed.

Lemma get_panic {A} (l : list A) i : (length l <= i)%nat -> get l i = Panic.
Proof. intros H. unfold get. apply nth_error_None in H. rewrite H. reflexivity. Qed.

Lemma get_ok_iff {A} (l : list A) i : is_ok (get l i) = true <-> (i < length l)%nat.
Proof.
  unfold get. destruct (nth_error l i) eqn:E; cbn.
  - split; [|reflexivity]. intros _. apply nth_error_Some. congruence.
  - apply nth_error_None in E. split; [discriminate|lia].
Qed.

Lemma get_app_l {A} (l1 l2 : list A) i : (i < length l1)%nat -> get (l1 ++ l2) i = get l1 i.
Proof. intros H. unfold get. rewrite nth_error_app1 by assumption. reflexivity. Qed.

Lemma get_app_r {A} (l1 l2 : list A) i :
  (length l1 <= i)%nat -> get (l1 ++ l2) i = get l2 (i - length l1).
Proof. intros H. unfold get. rewrite nth_error_app2 by assumption. reflexivity. Qed.

Lemma set_length {A} (l l' : list A) i v : set l i v = Ok l' -> length l' = length l.
Proof.
  unfold set. destruct (Nat.ltb_spec i (length l)); [|discriminate].
  intros E. assert (Hl : l' = firstn i l ++ v :: skipn (S i) l) by congruence.
  clear E. subst l'. pose proof (skipn_length (S i) l) as Hs.
  rewrite app_length, firstn_length. change (length (v :: ?r)) with (S (length r)). lia.
Qed.

Lemma slice_from_app {A} (l1 l2 : list A) : slice_from (l1 ++ l2) (length l1) = Ok l2.
Proof.
  unfold slice_from. rewrite app_length.
  destruct (Nat.leb_spec (length l1) (length l1 + length l2)); [|lia].
  rewrite skipn_app, skipn_all, Nat.sub_diag. reflexivity.
Qed.

Lemma on_from_app {A} (l1 l2 : list A) f :
  on_from (l1 ++ l2) (length l1) f = (t <- f l2 ;; Ok (l1 ++ t)).
Proof.
  unfold on_from. rewrite slice_from_app. cbn [bind].
  rewrite firstn_app, firstn_all, Nat.sub_diag. cbn [firstn]. rewrite app_nil_r. reflexivity.
Qed.

Lemma set_app_r {A} (l1 l2 : list A) v :
  set (l1 ++ l2) (length l1) v = (t <- set l2 0 v ;; Ok (l1 ++ t)).
Proof.
  unfold set. rewrite app_length.
  destruct l2 as [|x l2]; cbn [length].
  - rewrite Nat.add_0_r, Nat.ltb_irrefl. reflexivity.
  - destruct (Nat.ltb_spec (length l1) (length l1 + S (length l2))); [|lia].
    rewrite firstn_app, firstn_all, Nat.sub_diag. cbn [firstn]. rewrite app_nil_r.
    rewrite skipn_app. rewrite skipn_all2 by lia.
    replace (S (length l1) - length l1)%nat with 1%nat by lia. reflexivity.
Qed.

Lemma slice_ok {A} (l1 l2 l3 : list A) a b :
  a = length l1 -> b = (length l1 + length l2)%nat -> slice (l1 ++ l2 ++ l3) a b = Ok l2.
Proof.
  intros -> ->. unfold slice. rewrite !app_length.
  destruct (Nat.leb_spec (length l1) (length l1 + length l2)); [|lia].
  destruct (Nat.leb_spec (length l1 + length l2) (length l1 + (length l2 + length l3))); [|lia].
  cbn [andb]. rewrite skipn_app, skipn_all, Nat.sub_diag. cbn [app skipn].
  replace (length l1 + length l2 - length l1)%nat with (length l2) by lia.
  rewrite firstn_app, firstn_all, Nat.sub_diag. cbn. rewrite app_nil_r. reflexivity.
Qed.

Lemma copy_from_ok {A} (l1 l2 l3 src : list A) a b :
  a = length l1 -> b = (length l1 + length l2)%nat -> length src = length l2 ->
  copy_from (l1 ++ l2 ++ l3) a b src = Ok (l1 ++ src ++ l3).
Proof.
  intros -> -> Hs. unfold copy_from. rewrite !app_length.
  destruct (Nat.leb_spec (length l1) (length l1 + length l2)); [|lia].
  destruct (Nat.leb_spec (length l1 + length l2) (length l1 + (length l2 + length l3))); [|lia].
  destruct (Nat.eqb_spec (length l1 + length l2 - length l1) (length src)); [|lia].
  cbn [andb]. rewrite firstn_app, firstn_all, Nat.sub_diag. cbn [firstn]. rewrite app_nil_r.
  f_equal. f_equal. f_equal. rewrite app_assoc.
  rewrite (skipn_app _ (l1 ++ l2)), skipn_all2 by (rewrite app_length; lia).
  rewrite app_length, Nat.sub_diag. reflexivity.
Qed.

Lemma resize_grow {A} (l : list A) n v :
  (length l <= n)%nat -> resize l n v = l ++ repeat v (n - length l).
Proof. intros H. unfold resize. rewrite firstn_all2 by assumption. reflexivity. Qed.

Lemma resize_shrink {A} (l : list A) n v : (n <= length l)%nat -> resize l n v = firstn n l.
Proof.
  intros H. unfold resize. replace (n - length l)%nat with 0%nat by lia. cbn.
  apply app_nil_r.
Qed.

Lemma resize_length {A} (l : list A) n v : length (resize l n v) = n.
Proof. unfold resize. rewrite app_length, firstn_length, repeat_length. lia. Qed.

Lemma list_split_len {A} (l : list A) n : (n <= length l)%nat ->
  exists l1 l2, l = l1 ++ l2 /\ length l1 = n.
Proof.
  intros H. exists (firstn n l), (skipn n l). split; [symmetry; apply firstn_skipn|].
  rewrite firstn_length. lia.
Qed.

(** * bytes *)
Lemma bytesb_iff l : bytesb l = true <-> bytes l.
Proof.
  unfold bytesb, bytes. rewrite forallb_forall, Forall_forall.
  split; intros H x Hx; specialize (H x Hx); lia.
Qed.

Lemma bytes_app l1 l2 : bytes (l1 ++ l2) <-> bytes l1 /\ bytes l2.
Proof. unfold bytes. apply Forall_app. Qed.

Lemma bytes_cons b l : bytes (b :: l) <-> b < 256 /\ bytes l.
Proof.
  unfold bytes. split.
  - intros H. inversion H; subst. auto.
  - intros [H1 H2]. constructor; assumption.
Qed.

Lemma bytes_nil : bytes [].
Proof. constructor. Qed.

Lemma bytes_firstn n l : bytes l -> bytes (firstn n l).
Proof. intros H. rewrite <- (firstn_skipn n l) in H. apply bytes_app in H. apply H. Qed.

Lemma bytes_skipn n l : bytes l -> bytes (skipn n l).
Proof. intros H. rewrite <- (firstn_skipn n l) in H. apply bytes_app in H. apply H. Qed.

Lemma bytes_repeat b n : b < 256 -> bytes (repeat b n).
Proof. intros H. unfold bytes. rewrite Forall_forall. intros x Hx. apply repeat_spec in Hx. subst. assumption. Qed.

Lemma bytes_nth l i : bytes l -> nth i l 0 < 256.
Proof.
  intros H. destruct (Nat.ltb_spec i (length l)) as [Hi|Hi].
  - unfold bytes in H. rewrite Forall_forall in H. apply H. apply nth_In. assumption.
  - rewrite nth_overflow by assumption. lia.
Qed.

(** * layout *)
Lemma pack_bits_app l1 l2 : (length l1 mod 8 = 0)%nat -> pack_bits (l1 ++ l2) = pack_bits l1 ++ pack_bits l2.
Proof.
  assert (G : forall n l, length l = (8 * n)%nat -> pack_bits (l ++ l2) = pack_bits l ++ pack_bits l2).
  { induction n as [|n IH]; intros l Hl.
    - destruct l; [reflexivity|discriminate].
    - do 8 (destruct l as [|? l]; [cbn in Hl; lia|]).
      cbn [app pack_bits]. rewrite IH by (cbn in Hl; lia). reflexivity. }
  intros H. apply (G (length l1 / 8)%nat).
  pose proof (Nat.div_mod (length l1) 8). lia.
Qed.

Definition total_width (fs : list (nat * N)) : nat := fold_right (fun f a => fst f + a)%nat O fs.

Lemma field_bits_length fs : length (field_bits fs) = total_width fs.
Proof.
  induction fs as [|[w v] fs IH]; cbn; [reflexivity|].
  rewrite app_length, bits_of_length. unfold field_bits in IH. rewrite IH. reflexivity.
Qed.

Lemma layout_app f1 f2 : (total_width f1 mod 8 = 0)%nat -> layout (f1 ++ f2) = layout f1 ++ layout f2.
Proof.
  intros H. unfold layout. unfold field_bits at 1. rewrite flat_map_app.
  apply pack_bits_app. fold (field_bits f1). rewrite field_bits_length. assumption.
Qed.

Lemma pack_bits_bytes l : bytes (pack_bits l).
Proof.
  assert (G : forall n l, (length l <= n)%nat -> bytes (pack_bits l)).
  { induction n as [|n IH]; intros l' Hl.
    - destruct l'; [constructor|cbn in Hl; lia].
    - do 8 (destruct l' as [|? l']; [constructor|]).
      cbn [pack_bits]. constructor; [|apply IH; cbn in Hl; lia].
      change 256 with (2 ^ N.of_nat 8). apply N_of_bits_lt. }
  apply (G (length l)). lia.
Qed.

Lemma layout_bytes fs : bytes (layout fs).
Proof. apply pack_bits_bytes. Qed.

Lemma unpack_app l1 l2 : unpack (l1 ++ l2) = unpack l1 ++ unpack l2.
Proof. unfold unpack. apply flat_map_app. Qed.

Lemma unpack_length l : length (unpack l) = (8 * length l)%nat.
Proof.
  induction l as [|b l IH]; [reflexivity|].
  change (unpack (b :: l)) with (bits_of 8 b ++ unpack l).
  rewrite app_length, bits_of_length, IH. cbn [length]. lia.
Qed.

Lemma bits_of_pack8 b7 b6 b5 b4 b3 b2 b1 b0 :
  bits_of 8 (N_of_bits [b7; b6; b5; b4; b3; b2; b1; b0]) = [b7; b6; b5; b4; b3; b2; b1; b0].
Proof. destruct b7, b6, b5, b4, b3, b2, b1, b0; reflexivity. Qed.

Lemma unpack_pack l : (length l mod 8 = 0)%nat -> unpack (pack_bits l) = l.
Proof.
  assert (G : forall n l, length l = (8 * n)%nat -> unpack (pack_bits l) = l).
  { induction n as [|n IH]; intros l' Hl.
    - destruct l'; [reflexivity|discriminate].
    - do 8 (destruct l' as [|? l']; [cbn in Hl; lia|]).
      cbn [pack_bits]. unfold unpack. cbn [flat_map]. rewrite bits_of_pack8.
      fold (unpack (pack_bits l')). rewrite IH by (cbn in Hl; lia). reflexivity. }
  intros H. apply (G (length l / 8)%nat).
  pose proof (Nat.div_mod (length l) 8). lia.
Qed.

Lemma pack_unpack l : bytes l -> pack_bits (unpack l) = l.
Proof.
  induction l as [|b l IH]; intros H; [reflexivity|].
  apply bytes_cons in H. destruct H as [Hb Hl].
  unfold unpack. cbn [flat_map]. rewrite pack_bits_app by (rewrite bits_of_length; reflexivity).
  fold (unpack l). rewrite IH by assumption.
  change (pack_bits (bits_of 8 b)) with [N_of_bits (bits_of 8 b)].
  rewrite bits_of_small by assumption. reflexivity.
Qed.

Lemma unpack_layout fs : (total_width fs mod 8 = 0)%nat -> unpack (layout fs) = field_bits fs.
Proof. intros H. apply unpack_pack. rewrite field_bits_length. assumption. Qed.

(** reading back a field of a table: the field after [pre], of width [w], is the
    value written modulo 2^w *)
Lemma field_layout pre w v post l :
  (total_width (pre ++ (w, v) :: post) mod 8 = 0)%nat ->
  field (layout (pre ++ (w, v) :: post) ++ l) (total_width pre) w = v mod 2 ^ N.of_nat w.
Proof.
  intros H. unfold field. rewrite unpack_app, unpack_layout by assumption.
  unfold field_bits. rewrite flat_map_app. cbn [flat_map fst snd].
  fold (field_bits pre) (field_bits post).
  rewrite <- (field_bits_length pre). rewrite <- !app_assoc.
  rewrite skipn_app, skipn_all, Nat.sub_diag. cbn [app skipn].
  replace w with (length (bits_of w v)) at 1 by apply bits_of_length.
  rewrite firstn_app, firstn_all, Nat.sub_diag. cbn [firstn]. rewrite app_nil_r.
  apply N_of_bits_bits_of.
Qed.

Lemma field_lt l off w : field l off w < 2 ^ N.of_nat w.
Proof.
  unfold field. eapply N.lt_le_trans; [apply N_of_bits_lt|].
  apply N.pow_le_mono_r; [lia|]. rewrite firstn_length. lia.
Qed.

Lemma field_app l1 l2 off w :
  field (l1 ++ l2) (8 * length l1 + off) w = field l2 off w.
Proof.
  unfold field. rewrite unpack_app. rewrite skipn_app, unpack_length.
  rewrite skipn_all2 by (rewrite unpack_length; lia).
  replace (8 * length l1 + off - 8 * length l1)%nat with off by lia. reflexivity.
Qed.

(** * big endian *)
Lemma be_app l1 l2 : be (l1 ++ l2) = be l1 * 256 ^ N.of_nat (length l2) + be l2.
Proof.
  unfold be. rewrite fold_left_app.
  generalize (fold_left (fun a b => 256 * a + b) l1 0) as x.
  induction l2 as [|b l2 IH] using rev_ind; intros x.
  - cbn. lia.
  - rewrite !fold_left_app, app_length. cbn [fold_left length]. rewrite IH.
    replace (N.of_nat (length l2 + 1)) with (N.succ (N.of_nat (length l2))) by lia.
    rewrite N.pow_succ_r'. lia.
Qed.

Lemma to_be_length n v : length (to_be n v) = n.
Proof. induction n; cbn; congruence. Qed.

Lemma to_be_bytes n v : bytes (to_be n v).
Proof. induction n; cbn; constructor; [apply N.mod_lt; lia|assumption]. Qed.

Lemma be_to_be n v : be (to_be n v) = v mod 256 ^ N.of_nat n.
Proof.
  induction n as [|n IH]; [cbn; rewrite N.mod_1_r; reflexivity|].
  cbn [to_be]. change (?b :: ?r) with ([b] ++ r). rewrite be_app, IH, to_be_length.
  change (be [?x]) with (256 * 0 + x).
  replace (N.of_nat (S n)) with (N.succ (N.of_nat n)) by lia. rewrite N.pow_succ_r'.
  rewrite (N.mul_comm 256 (256 ^ N.of_nat n)).
  rewrite N.mod_mul_r by (try apply N.pow_nonzero; lia). lia.
Qed.

Lemma be_lt l : bytes l -> be l < 256 ^ N.of_nat (length l).
Proof.
  induction l as [|b l IH] using rev_ind; intros H; [cbn; lia|].
  apply bytes_app in H. destruct H as [H1 H2]. apply bytes_cons in H2. destruct H2 as [Hb _].
  rewrite be_app, app_length. cbn [length].
  replace (N.of_nat (length l + 1)) with (N.succ (N.of_nat (length l))) by lia.
  rewrite N.pow_succ_r'. specialize (IH H1). change (be [b]) with (256 * 0 + b).
  change (256 ^ N.of_nat 1) with 256. lia.
Qed.

Lemma to_be_be l : bytes l -> to_be (length l) (be l) = l.
Proof.
  induction l as [|b l IH]; intros H; [reflexivity|].
  apply bytes_cons in H. destruct H as [Hb Hl].
  cbn [length to_be]. f_equal.
  - change (b :: l) with ([b] ++ l). rewrite be_app. change (be [b]) with (256 * 0 + b).
    rewrite N.mul_0_r, N.add_0_l.
    pose proof (be_lt l Hl).
    rewrite N.div_add_l by (apply N.pow_nonzero; lia).
    rewrite N.div_small by assumption. rewrite N.add_0_r. apply N.mod_small. assumption.
  - rewrite <- (IH Hl) at 3.
    assert (G : forall n v, (n <= length l)%nat ->
        to_be n (b * 256 ^ N.of_nat (length l) + v) = to_be n v).
    { induction n as [|n IHn]; intros v Hn; [reflexivity|]. cbn [to_be]. rewrite IHn by lia. f_equal.
      replace (N.of_nat (length l)) with (N.of_nat (length l - S n) + 1 + N.of_nat n) by lia.
      rewrite N.pow_add_r. rewrite N.mul_assoc.
      rewrite N.div_add_l by (apply N.pow_nonzero; lia).
      rewrite N.pow_add_r. change (256 ^ 1) with 256.
      rewrite N.mul_assoc. rewrite N.add_comm. rewrite N.mod_add by lia. reflexivity. }
    change (b :: l) with ([b] ++ l). rewrite be_app. change (be [b]) with (256 * 0 + b).
    rewrite N.mul_0_r, N.add_0_l. apply G. lia.
Qed.

(** finite sweeps: a decidable statement about all numbers below a literal *)
Definition Nrange (n : nat) : list N := map N.of_nat (seq 0 n).

Lemma sweep (n : nat) (f : N -> bool) :
  forallb f (Nrange n) = true -> forall v, v < N.of_nat n -> f v = true.
Proof.
  intros H v Hv. rewrite forallb_forall in H. apply H. unfold Nrange.
  apply in_map_iff. exists (N.to_nat v). split; [apply N2Nat.id|]. apply in_seq. lia.
Qed.

Lemma sweep2 (n1 n2 : nat) (f : N -> N -> bool) :
  forallb (fun a => forallb (f a) (Nrange n2)) (Nrange n1) = true ->
  forall a b, a < N.of_nat n1 -> b < N.of_nat n2 -> f a b = true.
Proof.
  intros H a b Ha Hb. pose proof (sweep n1 _ H a Ha) as H'. cbn in H'.
  exact (sweep n2 _ H' b Hb).
Qed.

(** disjoint or is addition *)
Lemma lor_add k a b : a mod 2 ^ k = 0 -> b < 2 ^ k -> N.lor a b = a + b.
Proof.
  intros Ha Hb.
  assert (E : N.land a b = 0).
  { apply N.bits_inj_0. intros i. rewrite N.land_spec.
    destruct (N.ltb_spec i k) as [Hi|Hi].
    - replace (N.testbit a i) with false; [reflexivity|].
      rewrite <- (N.mod_pow2_bits_low a k i Hi). rewrite Ha. symmetry. apply N.bits_0.
    - rewrite (testbit_small b (2 ^ k) i Hb); [apply andb_false_r|].
      apply N.leb_le. apply N.pow_le_mono_r; lia. }
  rewrite <- N.lxor_lor by assumption. symmetry. apply N.add_nocarry_lxor. assumption.
Qed.

Lemma shlw_small w a k : a * 2 ^ k < w -> shlw w a k = a * 2 ^ k.
Proof. intros H. unfold shlw. rewrite N.shiftl_mul_pow2. apply N.mod_small. assumption. Qed.

Lemma addw_ok w m a b : a + b < w -> addw w m a b = Ok (a + b).
Proof. intros H. unfold addw. apply N.ltb_lt in H. rewrite H. reflexivity. Qed.
Lemma mulw_ok w m a b : a * b < w -> mulw w m a b = Ok (a * b).
Proof. intros H. unfold mulw. apply N.ltb_lt in H. rewrite H. reflexivity. Qed.
Lemma subw_ok w m a b : b <= a -> subw w m a b = Ok (a - b).
Proof. intros H. unfold subw. apply N.leb_le in H. rewrite H. reflexivity. Qed.

Lemma field_app_n n l1 l2 off w : length l1 = n ->
  field (l1 ++ l2) (8 * n + off) w = field l2 off w.
Proof. intros <-. apply field_app. Qed.
