(** Proofs: what can make a sender abort. *)
From Verif Require Import Prelude Layout Facts S_text S_utils S_desc M_bytes M_ts M_crc M_utils M_text M_psi M_desc M_tables
  P_text2 P_utils P_crc P_desc S_sender.

(** ** runs with a known outcome *)
Definition dbg (m : mode) : bool := match m with Debug => true | Release => false end.
Definition st {A} (s : bool) (e : res A) (Q : A -> Prop) : Prop := if s then e = Panic else exists a, e = Ok a /\ Q a.
Lemma st_bind {A B} s1 s2 (e : res A) (k : A -> res B) Q R :
  st s1 e Q -> (forall a, Q a -> st s2 (k a) R) -> st (s1 || s2) (bind e k) R.
Proof. unfold st. destruct s1; cbn [orb]; [intros ->; reflexivity|]. intros (a & -> & q) H. exact (H a q). Qed.
Lemma st_seq {A B} s (e : res A) (k : A -> res B) Q R : st false e Q -> (forall a, Q a -> st s (k a) R) -> st s (bind e k) R.
Proof. exact (st_bind false s e k Q R). Qed.
Lemma st_then {A B} s (e : res A) (k : A -> res B) Q R : st s e Q -> (forall a, Q a -> st false (k a) R) -> st s (bind e k) R.
Proof. intros H1 H2. rewrite <- (orb_false_r s). exact (st_bind s false e k Q R H1 H2). Qed.
Lemma st_ok {A} (a : A) (Q : A -> Prop) : Q a -> st false (Ok a) Q.
Proof. intros H. exists a. auto. Qed.
Lemma st_weak {A} s (e : res A) (Q R : A -> Prop) : st s e Q -> (forall a, Q a -> R a) -> st s e R.
Proof. unfold st. destruct s; [auto|]. intros (a & E & q) H. eauto. Qed.
Lemma st_eq {A} s s' (e : res A) Q : s = s' -> st s e Q -> st s' e Q. Proof. intros ->. auto. Qed.
Lemma st_final {A} (f : mode -> res A) (over : bool) (Q : A -> Prop) : (forall m, st (dbg m && over) (f m) Q) -> stops_if f over.
Proof.
  intros H. split; [|split].
  - destruct (H Release) as (a & E & _). eauto.
  - intros E. pose proof (H Debug) as D. rewrite E in D. exact D.
  - intros E. pose proof (H Debug) as D. rewrite E in D. destruct D as (a & D & _). eauto.
Qed.

(** ** vectors *)
Definition B (n : nat) (l : list N) : Prop := length l = n /\ bytes l.
Lemma B_app n l k x : B n l -> B k x -> B (n + k) (l ++ x).
Proof. intros (L & H) (L' & H'). split; [rewrite app_length; lia|apply bytes_app; auto]. Qed.
Lemma B_one v : v < 256 -> B 1 [v].
Proof. intros H. split; [reflexivity|constructor; [exact H|constructor]]. Qed.
Lemma B_push n l v : B n l -> v < 256 -> B (n + 1) (l ++ [v]).
Proof. intros H V. apply B_app; [exact H|exact (B_one v V)]. Qed.
Lemma B_resize n l k : B n l -> B (n + k) (resize l (length l + k) 0).
Proof. intros (L & H). rewrite resize_app. apply B_app; [split; assumption|]. split; [apply repeat_length|apply bytes_repeat; reflexivity]. Qed.
Lemma B_at n l : B n l -> length l = n. Proof. intros H. apply H. Qed.
Lemma st_set n l i v : B n l -> (i < n)%nat -> v < 256 -> st false (set l i v) (B n).
Proof.
  intros (L & H) I V. unfold st, set. destruct (Nat.ltb_spec i (length l)); [|lia]. eexists. split; [reflexivity|]. split.
  - rewrite app_length, firstn_length. cbn [length]. rewrite skipn_length. lia.
  - apply bytes_app. split; [apply bytes_firstn, H|]. apply bytes_cons. split; [exact V|apply bytes_skipn, H].
Qed.
Lemma st_from n l i (f : list N -> res (list N)) : B n l -> (i <= n)%nat -> (forall t, B (n - i) t -> st false (f t) (B (n - i))) -> st false (on_from l i f) (B n).
Proof.
  intros (L & H) I F. unfold on_from, slice_from. destruct (Nat.leb_spec i (length l)); [|lia]. cbn [bind].
  eapply st_seq; [apply F; split; [rewrite skipn_length; lia|apply bytes_skipn, H]|]. intros t (T & Tb). apply st_ok. split.
  - rewrite app_length, firstn_length. lia.
  - apply bytes_app. split; [apply bytes_firstn, H|exact Tb].
Qed.
Lemma cast8 v : cast U8 v < 256. Proof. apply N.mod_lt. discriminate. Qed.
Lemma shl8 v k : shlw U8 v k < 256. Proof. apply N.mod_lt. discriminate. Qed.
Lemma lor8 a b : a < 256 -> b < 256 -> N.lor a b < 256. Proof. exact (lor_lt 8 a b). Qed.
Ltac byte := repeat first [apply lor8 | apply cast8 | apply shl8 | assumption | (cbn; lia) | lia].
Lemma st_u16 n l i v : B n l -> (i + 2 <= n)%nat -> st false (set_u16_at l i v) (B n).
Proof.
  intros H I. apply st_from; [exact H|lia|]. intros t T. unfold set_u16. eapply st_seq; [apply st_set; [exact T|lia|apply cast8]|].
  intros a A. apply st_set; [exact A|lia|apply cast8].
Qed.
Lemma st_u24 n l i v : B n l -> (i + 3 <= n)%nat -> st false (set_u24_at l i v) (B n).
Proof.
  intros H I. apply st_from; [exact H|lia|]. intros t T. unfold set_u24. eapply st_seq; [apply st_set; [exact T|lia|apply cast8]|].
  intros a A. eapply st_seq; [apply st_set; [exact A|lia|apply cast8]|]. intros c C. apply st_set; [exact C|lia|apply cast8].
Qed.
Lemma st_u32 n l i v : B n l -> (i + 4 <= n)%nat -> st false (set_u32_at l i v) (B n).
Proof.
  intros H I. apply st_from; [exact H|lia|]. intros t T. unfold set_u32. eapply st_seq; [apply st_set; [exact T|lia|apply cast8]|].
  intros a A. eapply st_seq; [apply st_set; [exact A|lia|apply cast8]|]. intros c C. eapply st_seq; [apply st_set; [exact C|lia|apply cast8]|].
  intros d D. apply st_set; [exact D|lia|apply cast8].
Qed.
Lemma st_get n l i : B n l -> (i < n)%nat -> st false (get l i) (fun v => v < 256).
Proof.
  intros (L & H) I. unfold st, get. destruct (nth_error l i) as [v|] eqn:E; [|apply nth_error_None in E; lia].
  exists v. split; [reflexivity|]. apply nth_error_In in E. unfold bytes in H. rewrite Forall_forall in H. exact (H v E).
Qed.
(** one step of a function that fills a vector *)
Ltac step := eapply st_seq; [first [eapply st_set | eapply st_u16 | eapply st_u24 | eapply st_u32]; [eassumption|try lia|..]; try byte|]; intros ? ?.

(** ** numbers *)
Lemma st_bcd4 m v : st (dbg m && over4 v) (u16_to_bcd m v) (fun x => x < 65536).
Proof.
  rewrite u16_to_bcd_spec. unfold over4. assert (D : dec_nibs 2 (v mod 100) < 256) by (pose proof (dec_nibs_2_lt (v mod 100)); lia).
  destruct (N.ltb_spec (v / 100 mod 256) 100) as [L|L].
  - replace (100 <=? v / 100 mod 256) with false by (symmetry; apply N.leb_gt; exact L). rewrite andb_false_r. apply st_ok.
    pose proof (dec_nibs_2_lt (v / 100 mod 256)). lia.
  - replace (100 <=? v / 100 mod 256) with true by (symmetry; apply N.leb_le; exact L). rewrite andb_true_r. destruct m; [reflexivity|]. apply st_ok. cbv zeta.
    assert ((v / 100 mod 256 + 6 * (v / 100 mod 256 / 10)) mod 256 < 256) by (apply N.mod_lt; discriminate). lia.
Qed.
Lemma st_bcd8 m v : st (dbg m && over8 v) (u32_to_bcd m v) (fun _ => True).
Proof.
  unfold u32_to_bcd, over8. eapply st_then; [apply (st_bcd4 m (v / 10000 mod 65536))|]. intros h H. cbv beta in H. unfold cast. change U16 with 65536.
  assert (Z : v mod 10000 < 10000) by (apply N.mod_lt; discriminate).
  replace (v mod 10000 mod 65536) with (v mod 10000) by (symmetry; apply N.mod_small; eapply N.lt_trans; [exact Z|reflexivity]).
  rewrite (u16_to_bcd_ok m) by exact Z. cbn [bind]. unfold addw.
  assert (L : dec_nibs 4 (v mod 10000) < 65536).
  { destruct (st_bcd4 Release (v mod 10000)) as (x & E & X). rewrite u16_to_bcd_ok in E by exact Z. congruence. }
  rewrite shlw_small by (unfold U32; change (2 ^ 16) with 65536; lia). change (2 ^ 16) with 65536.
  destruct (N.ltb_spec (h * 65536 + dec_nibs 4 (v mod 10000)) U32) as [_|Y]; [apply st_ok; trivial|unfold U32 in Y; lia].
Qed.
Lemma st_time4 m v : v < 2 ^ 16 -> st false (u16_to_bcd_time m v) (fun _ => True).
Proof. intros H. rewrite u16_to_bcd_time_spec by exact H. apply st_ok. trivial. Qed.
Lemma st_time6 m v : v < 2 ^ 32 -> st false (u32_to_bcd_time m v) (fun _ => True).
Proof. intros H. rewrite u32_to_bcd_time_spec by exact H. apply st_ok. trivial. Qed.
Lemma st_mjd m v : v < 2 ^ 64 -> st false (to_mjd m v) (fun _ => True).
Proof.
  intros H. unfold to_mjd, addw. destruct (N.ltb_spec (v / 86400 + 40587) U64) as [_|Z]; [apply st_ok; trivial|].
  exfalso. change (2 ^ 64) with U64 in H. unfold U64 in *. dlia.
Qed.
Lemma cast32 v : cast U32 v < 2 ^ 32. Proof. apply N.mod_lt. discriminate. Qed.

(** ** texts *)
Lemma text_bytes t : text_typed t -> B (len t) (text t).
Proof.
  intros (H & D). split; [reflexivity|]. change (2 ^ 8) with 256 in H. unfold text. destruct (t_data t) as [|x d]; [constructor|].
  apply bytes_app. split; [|exact D]. unfold selector. destruct (t_cp t =? 0); [constructor|]. destruct (t_cp t <=? 4).
  - repeat constructor. exact H.
  - destruct (N.leb_spec (t_cp t) 15); repeat constructor; lia.
Qed.
Lemma st_text m t n b : text_typed t -> B n b -> st false (dvb_assemble m t b) (B (n + len t)).
Proof.
  intros T H. rewrite dvb_assemble_spec by apply T. apply st_ok. change (B (n + len t) (b ++ text t)). apply B_app; [exact H|exact (text_bytes t T)].
Qed.
Lemma st_sized m t n b : text_typed t -> B n b -> st false (dvb_assemble_sized m t b) (B (n + (1 + len t))).
Proof.
  intros T H. unfold dvb_assemble_sized. cbv zeta. pose proof (B_at _ _ H) as E.
  eapply st_seq; [apply st_text; [exact T|apply B_push; [exact H|reflexivity]]|]. intros a A. pose proof (B_at _ _ A) as EA.
  rewrite Nat.add_assoc. unfold sub_idx. destruct (Nat.leb_spec (length b) (length a)); [|lia]. cbn [bind].
  destruct (Nat.leb_spec 1 (length a - length b)); [|lia]. cbn [bind].
  apply st_set; [exact A|lia|apply cast8].
Qed.

(** ** descriptors *)
Lemma sum_app {A} (f : A -> nat) l k : sum f (l ++ k) = (sum f l + sum f k)%nat.
Proof. induction l; cbn [sum fold_right app]; [reflexivity|]. fold (sum f). unfold sum in *. lia. Qed.
Lemma size_4E l : size_4E_items l = sum (fun i => (len (fst i) + len (snd i))%nat) l.
Proof. induction l as [|[a b] l IH]; [reflexivity|]. cbn [size_4E_items sum fold_right fst snd]. rewrite IH, !text_size. reflexivity. Qed.
Lemma size_said d : desc_size d = said d.
Proof. destruct d; cbn [desc_size said]; rewrite ?text_size, ?size_4E; unfold len; try reflexivity; lia. Qed.
Lemma lenb n : len_byte n < 256. Proof. apply cast8. Qed.
Ltac fin := eapply st_weak; [first [eapply st_set | eapply st_u16 | eapply st_u24 | eapply st_u32]; [eassumption|try lia|..]; try byte|].
Ltac B_goal := match goal with |- forall a, B ?x a -> B ?y a => replace y with x by lia; auto end.

Lemma st_09 m d n b : desc_typed (D09 d) -> B n b -> st (dbg m && false) (x09_assemble d b) (B (n + written (D09 d))).
Proof.
  intros (T1 & T2 & T3) H. rewrite andb_false_r. unfold x09_assemble. cbv zeta. pose proof (B_at _ _ H) as L.
  pose proof (B_resize n b 6 H) as H1. pose proof (lenb (desc_size (D09 d))). do 4 step. apply st_ok. cbn [written said].
  replace (n + (6 + length (d09_data d)))%nat with (n + 6 + length (d09_data d))%nat by lia. apply B_app; [assumption|]. split; [reflexivity|exact T3].
Qed.
Lemma st_0A_items m items : forall n b, Forall (fun i => text_typed (d0A_code i) /\ d0A_type i < 2 ^ 8) items -> B n b ->
  st false (x0A_items m items b) (B (n + sum (fun i => (len (d0A_code i) + 1)%nat) items)).
Proof.
  induction items as [|i items IH]; intros n b T H; cbn [x0A_items]; [apply st_ok; cbn [sum fold_right]; rewrite Nat.add_0_r; exact H|].
  inversion T as [|? ? (T1 & T2) T3]; subst. eapply st_seq; [apply st_text; [exact T1|exact H]|]. intros a A.
  eapply st_weak; [apply IH; [exact T3|apply B_push; [exact A|exact T2]]|]. cbn [sum fold_right]. unfold sum. B_goal.
Qed.
Lemma st_0A m items n b : desc_typed (D0A items) -> B n b -> st (dbg m && false) (x0A_assemble m items b) (B (n + written (D0A items))).
Proof.
  intros T H. rewrite andb_false_r. unfold x0A_assemble. eapply st_weak; [apply st_0A_items; [exact T|]; apply B_push; [apply B_push; [exact H|reflexivity]|apply lenb]|].
  cbn [written]. B_goal.
Qed.
Lemma st_0E m d n b : desc_typed (D0E d) -> B n b -> st (dbg m && false) (x0E_assemble d b) (B (n + written (D0E d))).
Proof.
  intros T H. rewrite andb_false_r. unfold x0E_assemble. cbv zeta. pose proof (B_at _ _ H) as L. cbn [desc_size].
  pose proof (B_resize n b 5 H) as H1. pose proof (lenb 5). do 2 step. fin. cbn [written said]. auto.
Qed.
Lemma st_40 m t n b : desc_typed (D40 t) -> B n b -> st (dbg m && false) (x40_assemble m t b) (B (n + written (D40 t))).
Proof.
  intros T H. rewrite andb_false_r. unfold x40_assemble. eapply st_weak; [apply st_sized; [exact T|apply B_push; [exact H|reflexivity]]|]. cbn [written said]. B_goal.
Qed.
Lemma st_41_items items : forall N b k, Forall (fun i => d41_sid i < 2 ^ 16 /\ d41_type i < 2 ^ 8) items -> B N b -> (k + length items * 3 <= N)%nat ->
  st false (x41_items items b k) (B N).
Proof.
  induction items as [|i items IH]; intros n b k T H K; cbn [x41_items]; [apply st_ok; exact H|]. inversion T as [|? ? (T1 & T2) T3]; subst. cbn [length] in K.
  change (2 ^ 8) with 256 in T2. do 2 step. apply IH; [exact T3|assumption|lia].
Qed.
Lemma st_41 m items n b : desc_typed (D41 items) -> B n b -> st (dbg m && false) (x41_assemble items b) (B (n + written (D41 items))).
Proof.
  intros T H. rewrite andb_false_r. unfold x41_assemble. cbv zeta. rewrite size_said. pose proof (B_at _ _ H) as L. cbn [written said].
  pose proof (B_resize n b _ H : B (n + (2 + 3 * length items)) (resize b (length b + (2 + 3 * length items)) 0)) as H1.
  pose proof (lenb (2 + 3 * length items)). do 2 step. apply st_41_items; [exact T|assumption|lia].
Qed.
Lemma st_83_items items : forall N b k, B N b -> (k + length items * 4 <= N)%nat -> st false (x83_items items b k) (B N).
Proof.
  induction items as [|i items IH]; intros n b k H K; cbn [x83_items]; [apply st_ok; exact H|]. cbn [length] in K.
  do 2 step. apply IH; [assumption|lia].
Qed.
Lemma st_83 m items n b : desc_typed (D83 items) -> B n b -> st (dbg m && false) (x83_assemble items b) (B (n + written (D83 items))).
Proof.
  intros T H. rewrite andb_false_r. unfold x83_assemble. cbv zeta. rewrite size_said. pose proof (B_at _ _ H) as L. cbn [written said].
  pose proof (B_resize n b _ H : B (n + (2 + 4 * length items)) (resize b (length b + (2 + 4 * length items)) 0)) as H1.
  pose proof (lenb (2 + 4 * length items)). do 2 step. apply st_83_items; [assumption|lia].
Qed.
Ltac num L := rewrite ?andb_orb_distrib_r; eapply st_bind; [apply L|]; intros ? _.
Lemma st_43 m d n b : desc_typed (D43 d) -> B n b -> st (dbg m && desc_over (D43 d)) (x43_assemble m d b) (B (n + written (D43 d))).
Proof.
  intros (T1 & T2 & T3 & T4 & T5 & T6 & T7 & T8 & T9) H. unfold x43_assemble. cbv zeta. pose proof (B_at _ _ H) as L. cbn [desc_size written said desc_over].
  pose proof (B_resize n b 13 H) as H1. pose proof (lenb 13). change (2 ^ 8) with 256 in *. do 2 step.
  rewrite !andb_orb_distrib_r, <- orb_assoc.
  eapply st_bind; [apply st_bcd8|]; intros ? _. step. eapply st_bind; [apply st_bcd4|]; intros ? _. do 2 step.
  eapply st_then; [apply st_bcd8|]; intros ? _. step. fin. auto.
Qed.
Lemma st_44 m d n b : desc_typed (D44 d) -> B n b -> st (dbg m && desc_over (D44 d)) (x44_assemble m d b) (B (n + written (D44 d))).
Proof.
  intros (T1 & T2 & T3 & T4 & T5) H. unfold x44_assemble. cbv zeta. pose proof (B_at _ _ H) as L. cbn [desc_size written said desc_over].
  pose proof (B_resize n b 13 H) as H1. pose proof (lenb 13). change (2 ^ 8) with 256 in *. do 2 step.
  rewrite !andb_orb_distrib_r.
  eapply st_bind; [apply st_bcd8|]; intros ? _. do 4 step. eapply st_then; [apply st_bcd8|]; intros ? _. step. fin. auto.
Qed.
Lemma st_48 m d n b : desc_typed (D48 d) -> B n b -> st (dbg m && false) (x48_assemble m d b) (B (n + written (D48 d))).
Proof.
  intros (T1 & T2 & T3) H. rewrite andb_false_r. unfold x48_assemble. cbv zeta.
  eapply st_seq; [apply st_sized; [exact T2|]; apply B_push; [apply B_push; [apply B_push; [exact H|reflexivity]|apply lenb]|exact T1]|]. intros a A.
  eapply st_weak; [apply st_sized; [exact T3|exact A]|]. cbn [written said]. B_goal.
Qed.
Lemma st_4D m d n b : desc_typed (D4D d) -> B n b -> st (dbg m && false) (x4D_assemble m d b) (B (n + written (D4D d))).
Proof.
  intros (T1 & T2 & T3) H. rewrite andb_false_r. unfold x4D_assemble. cbv zeta.
  eapply st_seq; [apply st_text; [exact T1|]; apply B_push; [apply B_push; [exact H|reflexivity]|apply lenb]|]. intros a A.
  eapply st_seq; [apply st_sized; [exact T2|exact A]|]. intros c C. eapply st_weak; [apply st_sized; [exact T3|exact C]|]. cbn [written]. B_goal.
Qed.
Lemma st_4E_items m items : forall n b, Forall (fun i => text_typed (fst i) /\ text_typed (snd i)) items -> B n b ->
  st false (x4E_items m items b) (B (n + sum (fun i => (2 + len (fst i) + len (snd i))%nat) items)).
Proof.
  induction items as [|[x y] items IH]; intros n b T H; cbn [x4E_items]; [apply st_ok; cbn [sum fold_right]; rewrite Nat.add_0_r; exact H|].
  inversion T as [|? ? (T1 & T2) T3]; subst. cbn [fst snd] in *. eapply st_seq; [apply st_sized; [exact T1|exact H]|]. intros a A.
  eapply st_seq; [apply st_sized; [exact T2|exact A]|]. intros c C. eapply st_weak; [apply IH; [exact T3|exact C]|]. cbn [sum fold_right fst snd]. unfold sum. B_goal.
Qed.
Lemma st_4E m d n b : desc_typed (D4E d) -> B n b -> st (dbg m && false) (x4E_assemble m d b) (B (n + written (D4E d))).
Proof.
  intros (T1 & T2 & T3 & T4 & T5) H. rewrite andb_false_r. unfold x4E_assemble. cbv zeta. rewrite size_said. cbn [written].
  destruct (Nat.ltb_spec 255 (said (D4E d) - 2)) as [Z|Z].
  - destruct (Nat.ltb_spec 257 (said (D4E d))) as [Y|Y]; [|lia]. apply st_ok. rewrite Nat.add_0_r. exact H.
  - destruct (Nat.ltb_spec 257 (said (D4E d))) as [Y|Y]; [lia|].
    eapply st_seq; [apply st_text; [exact T3|]; apply B_push; [apply B_push; [apply B_push; [exact H|reflexivity]|apply cast8]|byte]|]. intros a A.
    pose proof (B_at _ _ A) as LA.
    eapply st_seq; [apply st_4E_items; [exact T4|apply B_push; [exact A|reflexivity]]|]. intros c C. pose proof (B_at _ _ C) as LC.
    unfold sub_idx. destruct (Nat.leb_spec (length a) (length c)); [|lia]. cbn [bind].
    destruct (Nat.leb_spec 1 (length c - length a)); [|lia]. cbn [bind].
    eapply st_seq; [apply st_set; [exact C|lia|apply cast8]|]. intros e E.
    eapply st_weak; [apply st_sized; [exact T5|exact E]|]. B_goal.
Qed.
Lemma st_52 m t n b : desc_typed (D52 t) -> B n b -> st (dbg m && false) (Ok (x52_assemble t b)) (B (n + written (D52 t))).
Proof.
  intros T H. rewrite andb_false_r. apply st_ok. unfold x52_assemble. cbn [written said]. replace (n + 3)%nat with (n + 1 + 1 + 1)%nat by lia.
  apply B_push; [apply B_push; [apply B_push; [exact H|reflexivity]|apply lenb]|exact T].
Qed.
Lemma st_58_items m items : forall n b, desc_typed (D58 items) -> B n b ->
  st false (x58_items m items b) (B (n + sum (fun i => (len (d58_code i) + 10)%nat) items)).
Proof.
  induction items as [|i items IH]; intros n b T H; cbn [x58_items]; [apply st_ok; cbn [sum fold_right]; rewrite Nat.add_0_r; exact H|].
  inversion T as [|? ? (T1 & T2 & T3 & T4 & T5 & T6) T7]; subst. eapply st_seq; [apply st_text; [exact T1|exact H]|]. intros a A. cbv zeta.
  pose proof (B_resize _ a 10 A) as A1. pose proof (B_at _ _ A) as LA. change (2 ^ 8) with 256 in *.
  step. eapply st_seq; [apply st_time4; exact T4|]. intros ? _. step. eapply st_seq; [apply st_mjd; exact T5|]. intros ? _. step.
  eapply st_seq; [apply st_time6, cast32|]. intros ? _. step. eapply st_seq; [apply st_time4; exact T6|]. intros ? _. step.
  eapply st_weak; [apply IH; [exact T7|eassumption]|]. cbn [sum fold_right]. unfold sum. B_goal.
Qed.
Lemma st_58 m items n b : desc_typed (D58 items) -> B n b -> st (dbg m && false) (x58_assemble m items b) (B (n + written (D58 items))).
Proof.
  intros T H. rewrite andb_false_r. unfold x58_assemble.
  eapply st_weak; [apply st_58_items; [exact T|]; apply B_push; [apply B_push; [exact H|reflexivity]|apply lenb]|]. cbn [written]. B_goal.
Qed.
Lemma st_5A m d n b : desc_typed (D5A d) -> B n b -> st (dbg m && false) (x5A_assemble d b) (B (n + written (D5A d))).
Proof.
  intros T H. rewrite andb_false_r. unfold x5A_assemble. cbv zeta.
  assert (H0 : B (n + 1 + 1) ((b ++ [0x5A]) ++ [len_byte 13])) by (apply B_push; [apply B_push; [exact H|reflexivity]|apply lenb]).
  pose proof (B_resize _ _ 11 H0) as H1. pose proof (B_at _ _ H0) as L0. set (c := (b ++ [0x5A]) ++ [len_byte 13]) in *. clearbody c.
  do 4 step. fin. cbn [written said]. B_goal.
Qed.
Lemma st_raw m d n b : desc_typed (DRaw d) -> B n b -> st (dbg m && false) (Ok (raw_assemble d b)) (B (n + written (DRaw d))).
Proof.
  intros (T1 & T2) H. rewrite andb_false_r. apply st_ok. unfold raw_assemble. cbn [written said]. destruct (255 <? length (raw_data d))%nat.
  - rewrite Nat.add_0_r. exact H.
  - apply B_app; [exact H|]. split; [cbn [app length]; lia|]. cbn [app]. apply bytes_cons. split; [exact T1|]. apply bytes_cons. split; [apply cast8|exact T2].
Qed.
Lemma st_desc m d n b : desc_typed d -> B n b -> st (dbg m && desc_over d) (desc_assemble m d b) (B (n + written d)).
Proof.
  intros T H. destruct d; cbn [desc_assemble desc_over].
  - apply st_09; assumption.
  - apply st_0A; assumption.
  - apply st_0E; assumption.
  - apply st_40; assumption.
  - apply st_41; assumption.
  - exact (st_43 m d n b T H).
  - exact (st_44 m d n b T H).
  - apply st_48; assumption.
  - apply st_4D; assumption.
  - apply st_4E; assumption.
  - apply st_52; assumption.
  - apply st_58; assumption.
  - apply st_5A; assumption.
  - apply st_83; assumption.
  - apply st_raw; assumption.
Qed.
Lemma st_descs_bytes m ds : forall n b, descs_typed ds -> B n b -> st (dbg m && loop_over ds) (descs_bytes m ds b) (B (n + sum written ds)).
Proof.
  induction ds as [|d ds IH]; intros n b T H; cbn [descs_bytes loop_over existsb].
  - rewrite andb_false_r. apply st_ok. cbn [sum fold_right]. rewrite Nat.add_0_r. exact H.
  - inversion T as [|? ? T1 T2]; subst. rewrite andb_orb_distrib_r. eapply st_bind; [apply st_desc; [exact T1|exact H]|]. intros a A.
    eapply st_weak; [apply IH; [exact T2|exact A]|]. cbn [sum fold_right]. unfold sum. B_goal.
Qed.
Lemma st_descs m ds n b : descs_typed ds -> B n b -> st (dbg m && loop_over ds) (descs_assemble m ds b) (fun r => B (n + sum written ds) (fst r)).
Proof.
  intros T H. unfold descs_assemble. cbv zeta. eapply st_then; [apply st_descs_bytes; [exact T|exact H]|]. intros a A. apply st_ok. exact A.
Qed.
