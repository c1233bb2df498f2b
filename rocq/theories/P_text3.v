(** Proofs about splitting DVB text. *)
From Verif Require Import Prelude Layout Facts M_text S_text P_psi P_text P_text2.

Lemma land_cont b : b < 256 -> (N.land b 0xC0 =? 0x80) = cont b.
Proof.
  intros H. assert (G : forallb (fun i => Bool.eqb (N.land (N.of_nat i) 0xC0 =? 0x80) (cont (N.of_nat i))) (seq 0 256) = true)
    by (vm_compute; reflexivity).
  rewrite forallb_forall in G. specialize (G (N.to_nat b)). rewrite in_seq in G. rewrite N2Nat.id in G.
  apply eqb_prop. apply G. lia.
Qed.

Lemma get_nth_ok (l : list N) i : (i < length l)%nat -> get l i = Ok (nth i l 0).
Proof. intros H. unfold get. rewrite (nth_error_nth' l 0 H). reflexivity. Qed.

Lemma bytes_nth l i : bytes l -> nth i l 0 < 256.
Proof.
  intros H. destruct (Nat.ltb_spec i (length l)) as [Hi|Hi].
  - unfold bytes in H. rewrite Forall_forall in H. apply H. apply nth_In. assumption.
  - rewrite nth_overflow by assumption. lia.
Qed.

(** where the cut goes *)
Definition cut (utf : bool) (data : list N) (n : nat) : nat :=
  if utf && (n <? length data)%nat then
    if cont (nth n data 0) then if cont (nth (n - 1) data 0) then n - 2 else n - 1 else n
  else n.

Lemma back_off_2 m data n : bytes data -> (2 <= n < length data)%nat ->
  back_off m 2 data (N.of_nat n) = Ok (N.of_nat (cut true data n)).
Proof.
  intros Hb Hn. unfold cut. cbn [andb]. destruct (Nat.ltb_spec n (length data)); [|lia].
  cbn [back_off]. destruct (N.ltb_spec (N.of_nat n) (N.of_nat (length data))); [|lia].
  rewrite Nat2N.id, get_nth_ok by lia. cbn [bind]. rewrite land_cont by (apply bytes_nth; assumption).
  destruct (cont (nth n data 0)); [|reflexivity]. cbn [negb]. unfold subw at 1.
  destruct (N.leb_spec 1 (N.of_nat n)); [|lia]. cbn [bind].
  destruct (N.ltb_spec (N.of_nat n - 1) (N.of_nat (length data))); [|lia].
  replace (N.to_nat (N.of_nat n - 1)) with (n - 1)%nat by lia. rewrite get_nth_ok by lia. cbn [bind].
  rewrite land_cont by (apply bytes_nth; assumption).
  destruct (cont (nth (n - 1) data 0)); cbn [negb]; [|f_equal; lia]. unfold subw.
  destruct (N.leb_spec 1 (N.of_nat n - 1)); [|lia]. cbn [bind]. f_equal. lia.
Qed.

Lemma cut_bounds utf data n : (cut utf data n <= n)%nat /\ (n - 2 <= cut utf data n)%nat /\
  (utf = false \/ (length data <= n)%nat -> cut utf data n = n).
Proof.
  unfold cut. destruct utf; cbn [andb].
  - destruct (Nat.ltb_spec n (length data)).
    + destruct (cont _); [destruct (cont _)|]; split; try lia; split; try lia; intros [?|?]; try discriminate; try lia; reflexivity.
    + split; [lia|]. split; [lia|reflexivity].
  - split; [lia|]. split; [lia|reflexivity].
Qed.

(** one round of the loop *)
Lemma split_step fuel m t size skip : bytes (t_data t) -> N.of_nat (length (t_data t)) < 2 ^ 63 ->
  (skip < length (t_data t))%nat -> (skip = 0%nat -> size < U64) -> (skip <> 0%nat -> size < 2 ^ 63) ->
  (t_cp t = 21 -> 2 <= size) ->
  let n0 := Nat.min (length (t_data t)) (skip + N.to_nat size) in
  let n := cut (t_cp t =? 21) (t_data t) n0 in
  (skip <= n)%nat ->
  split_loop (S fuel) m t size (N.of_nat skip) =
  (r <- split_loop fuel m t size (N.of_nat n) ;; Ok (mkDvb (t_cp t) (firstn (n - skip) (skipn skip (t_data t))) :: r)).
Proof.
  intros Hb Hlen Hskip Hs0 Hs1 Hu n0 n Hn. cbn [split_loop].
  set (len := length (t_data t)) in *.
  destruct (N.ltb_spec (N.of_nat skip) (N.of_nat len)); [|lia].
  assert (EA : addw U64 m (N.of_nat skip) size = Ok (N.of_nat skip + size)).
  { unfold addw, U64 in *. change (2 ^ 63) with 9223372036854775808 in *.
    destruct (N.ltb_spec (N.of_nat skip + size) 18446744073709551616); [reflexivity|].
    destruct (Nat.eq_dec skip 0) as [E|E]; [specialize (Hs0 E)|specialize (Hs1 E)]; lia. }
  rewrite EA. cbn [bind].
  assert (EN : N.min (N.of_nat len) (N.of_nat skip + size) = N.of_nat n0) by (unfold n0; lia).
  rewrite EN.
  assert (EC : (if (t_cp t =? UTF8) && (N.of_nat n0 <? N.of_nat len) then back_off m 2 (t_data t) (N.of_nat n0) else Ok (N.of_nat n0))
               = Ok (N.of_nat n)).
  { unfold n, cut. change UTF8 with 21. destruct (N.eqb_spec (t_cp t) 21) as [E|E]; [|reflexivity]. cbn [andb].
    fold len. destruct (Nat.ltb_spec n0 len) as [L|L].
    - destruct (N.ltb_spec (N.of_nat n0) (N.of_nat len)); [|lia].
      rewrite back_off_2; [|assumption|split; [specialize (Hu E); unfold n0 in *; lia|assumption]].
      unfold cut. cbn [andb]. fold len. destruct (Nat.ltb_spec n0 len); [reflexivity|lia].
    - destruct (N.ltb_spec (N.of_nat n0) (N.of_nat len)); [lia|reflexivity]. }
  rewrite EC. cbn [bind].
  assert (Hnl : (n <= len)%nat).
  { destruct (cut_bounds (t_cp t =? 21) (t_data t) n0) as (B1 & _). fold n in B1. pose proof (Nat.le_min_l len (skip + N.to_nat size)). fold n0 in H0. lia. }
  destruct (N.leb_spec (N.of_nat skip) (N.of_nat n)); [|lia]. destruct (N.leb_spec (N.of_nat n) (N.of_nat len)); [|lia].
  cbn [andb]. rewrite !Nat2N.id. unfold slice. fold len.
  destruct (Nat.leb_spec skip n); [|lia]. destruct (Nat.leb_spec n len); [|lia]. reflexivity.
Qed.

Definition piece_ok (cp : N) (size : nat) (p : dvb) : Prop :=
  t_cp p = cp /\ (1 <= length (t_data p) <= size)%nat.

(** the slack of a piece that is not the last *)
Definition slack (cp : N) : nat := if cp =? 21 then 2 else 0.

Lemma split_loop_spec m t size : bytes (t_data t) -> N.of_nat (length (t_data t)) < 2 ^ 63 ->
  N.of_nat size < U64 -> (1 + slack (t_cp t) <= size)%nat ->
  forall fuel skip, (length (t_data t) - skip < fuel)%nat -> (skip <= length (t_data t))%nat ->
  (skip <> 0 -> skip < length (t_data t) -> size < length (t_data t))%nat ->
  exists l, split_loop fuel m t (N.of_nat size) (N.of_nat skip) = Ok l /\
    concat (map t_data l) = skipn skip (t_data t) /\ Forall (piece_ok (t_cp t) size) l /\
    Forall (fun p => (size - slack (t_cp t) <= length (t_data p))%nat) (removelast l).
Proof.
  intros Hb Hlen Hsz Hroom. set (len := length (t_data t)) in *.
  induction fuel as [|fuel IH]; intros skip Hf Hs Hne; [lia|].
  destruct (Nat.eq_dec skip len) as [->|Hlt].
  - exists []. cbn [split_loop]. fold len. destruct (N.ltb_spec (N.of_nat len) (N.of_nat len)); [lia|].
    split; [reflexivity|]. unfold len. rewrite skipn_all. split; [reflexivity|]. split; constructor.
  - assert (Hss : (skip < len)%nat) by lia.
    pose proof (split_step fuel m t (N.of_nat size) skip Hb Hlen Hss) as ST. cbv zeta in ST. rewrite Nat2N.id in ST.
    fold len in ST. set (n0 := Nat.min len (skip + size)) in *. set (n := cut (t_cp t =? 21) (t_data t) n0) in *.
    destruct (cut_bounds (t_cp t =? 21) (t_data t) n0) as (B1 & B2 & B3). fold n in B1, B2, B3. fold len in B3.
    assert (Hn0 : (n0 <= len)%nat /\ (n0 <= skip + size)%nat /\ (n0 = len \/ n0 = skip + size)%nat) by (unfold n0; lia).
    clearbody n0. unfold slack in *.
    assert (Hn : (skip < n <= len)%nat /\ (n - skip <= size)%nat /\ (n = len \/ (size - slack (t_cp t) <= n - skip)%nat)).
    { unfold slack. destruct (N.eqb_spec (t_cp t) 21) as [E|E].
      - destruct (Nat.leb_spec len n0) as [L|L]; [rewrite B3 by auto; lia|]. lia.
      - rewrite B3 by auto. lia. }
    rewrite ST; clear ST.
    2:{ intros _. exact Hsz. }
    2:{ intros Hk. specialize (Hne Hk). lia. }
    2:{ intros E. destruct (N.eqb_spec (t_cp t) 21); [lia|contradiction]. }
    2:{ lia. }
    destruct (IH n ltac:(lia) ltac:(lia)) as (l & -> & C & P & Q).
    { intros _ Hnl. destruct (Nat.eq_dec skip 0) as [Hz|Hz]; [|apply Hne; assumption].
      destruct (Nat.leb_spec len n0); [rewrite B3 in Hnl by auto; lia|]. lia. }
    cbn [bind]. eexists. split; [reflexivity|].
    set (pc := firstn (n - skip) (skipn skip (t_data t))).
    assert (Hpc : length pc = (n - skip)%nat) by (unfold pc; rewrite firstn_length, skipn_length; fold len; lia).
    split.
    { cbn [map concat t_data]. rewrite C. unfold pc.
      replace (skipn n (t_data t)) with (skipn (n - skip) (skipn skip (t_data t))).
      - apply firstn_skipn.
      - rewrite skipn_skipn. f_equal. lia. }
    split.
    { constructor; [|assumption]. split; [reflexivity|]. cbn [t_data]. lia. }
    destruct l as [|p l].
    + constructor.
    + match goal with |- Forall ?F (removelast (?a :: p :: l)) => change (Forall F (a :: removelast (p :: l))) end.
      constructor; [|assumption]. cbn [t_data]. rewrite Hpc.
      destruct Hn as (_ & _ & [En|Hn]); [|exact Hn]. exfalso.
      rewrite En in C. unfold len in C. rewrite skipn_all in C. cbn [map concat] in C.
      inversion P as [|? ? [_ Hp] _]; subst. destruct (t_data p); [cbn in Hp; lia|discriminate].
Qed.

(** ** cuts in UTF-8 *)
Lemma utf8_app a b : utf8 (a ++ b) = utf8 a ++ utf8 b.
Proof. apply flat_map_app. Qed.

Lemma utf8_char_shape c : is_char c -> exists a tl, utf8_char c = a :: tl /\ cont a = false /\ Forall (fun b => cont b = true) tl /\
  (length tl <= 3)%nat /\ (c < 0x10000 -> (length tl <= 2)%nat).
Proof.
  intros Hc. assert (c < 0x110000) by (destruct Hc; lia). unfold utf8_char.
  assert (M : forall x, cont (0x80 + x mod 64) = true).
  { intros x. unfold cont. assert (x mod 64 < 64) by (apply N.mod_upper_bound; lia).
    destruct (N.leb_spec 0x80 (0x80 + x mod 64)); [|lia]. destruct (N.ltb_spec (0x80 + x mod 64) 0xC0); [reflexivity|lia]. }
  assert (A : forall x, x < 0x80 \/ 0xC0 <= x -> cont x = false).
  { intros x Hx. unfold cont. destruct (N.leb_spec 0x80 x), (N.ltb_spec x 0xC0); try reflexivity; lia. }
  destruct (N.ltb_spec c 0x80).
  { exists c, []. split; [reflexivity|]. split; [apply A; lia|]. split; [constructor|]. cbn. lia. }
  destruct (N.ltb_spec c 0x800).
  { eexists _, _. split; [reflexivity|]. split; [apply A; lia|]. split; [repeat constructor; apply M|]. cbn. lia. }
  destruct (N.ltb_spec c 0x10000).
  { eexists _, _. split; [reflexivity|]. split; [apply A; lia|]. split; [repeat constructor; apply M|]. cbn. lia. }
  eexists _, _. split; [reflexivity|]. split; [apply A; lia|]. split; [repeat constructor; apply M|]. cbn. lia.
Qed.

Lemma utf8_bytes s : Forall is_char s -> bytes (utf8 s).
Proof. induction 1; [constructor|]. cbn [utf8 flat_map]. apply Forall_app. split; [apply utf8_char_bytes; assumption|assumption]. Qed.

(** a byte that does not continue a character starts one *)
Lemma utf8_boundary s : Forall is_char s -> forall n, (n < length (utf8 s))%nat -> cont (nth n (utf8 s) 0) = false ->
  exists s1 s2, s = s1 ++ s2 /\ n = length (utf8 s1).
Proof.
  induction 1 as [|c s Hc _ IH]; intros n Hn Hk; [cbn in Hn; lia|].
  cbn [utf8 flat_map] in *. fold (utf8 s) in *.
  destruct (utf8_char_shape c Hc) as (a & tl & E & Ha & Ht & _). rewrite E in *.
  destruct (Nat.ltb_spec n (length (a :: tl))) as [Hl|Hl].
  - rewrite app_nth1 in Hk by assumption. destruct n as [|n]; [exists [], (c :: s); auto|].
    cbn [nth] in Hk. rewrite Forall_forall in Ht. rewrite (Ht (nth n tl 0)) in Hk; [discriminate|].
    apply nth_In. cbn in Hl. lia.
  - rewrite app_nth2 in Hk by assumption. rewrite app_length in Hn.
    destruct (IH (n - length (a :: tl))%nat ltac:(lia) Hk) as (s1 & s2 & -> & En).
    exists (c :: s1), s2. split; [reflexivity|]. cbn [utf8 flat_map]. fold (utf8 s1). rewrite E, app_length. lia.
Qed.

(** no three continuation bytes in a row below U+10000 *)
Lemma utf8_no_three s : Forall is_char s -> Forall (fun c => c < 0x10000) s -> forall n, (n < length (utf8 s))%nat ->
  cont (nth n (utf8 s) 0) = true ->
  (1 <= n)%nat /\ (cont (nth (n - 1) (utf8 s) 0) = true -> (2 <= n)%nat /\ cont (nth (n - 2) (utf8 s) 0) = false).
Proof.
  induction 1 as [|c s Hc _ IH]; intros Hs n Hn Hk; [cbn in Hn; lia|]. inversion Hs as [|? ? Hc2 Hs2]; subst.
  cbn [utf8 flat_map] in *. fold (utf8 s) in *.
  destruct (utf8_char_shape c Hc) as (a & tl & E & Ha & Ht & _ & Hl2). rewrite E in *. specialize (Hl2 Hc2).
  destruct (Nat.ltb_spec n (length (a :: tl))) as [Hl|Hl].
  - rewrite app_nth1 in Hk by assumption. rewrite !app_nth1 by lia. cbn [length] in Hl.
    destruct n as [|[|[|n]]]; cbn [nth Nat.sub] in *; [congruence| | |lia].
    + split; [lia|]. intros; congruence.
    + split; [lia|]. intros _. split; [lia|assumption].
  - rewrite app_nth2 in Hk by assumption. rewrite app_length in Hn. set (k := length (a :: tl)) in *.
    destruct (IH Hs2 (n - k)%nat ltac:(lia) Hk) as [H1 H2]. split; [lia|].
    rewrite app_nth2 by lia. fold k. replace (n - 1 - k)%nat with (n - k - 1)%nat by lia. intros H3. destruct (H2 H3) as [H4 H5].
    split; [lia|]. rewrite app_nth2 by lia. fold k. replace (n - 2 - k)%nat with (n - k - 2)%nat by lia. assumption.
Qed.

Lemma cut_boundary s n : Forall is_char s -> Forall (fun c => c < 0x10000) s -> (n <= length (utf8 s))%nat ->
  exists s1 s2, s = s1 ++ s2 /\ cut true (utf8 s) n = length (utf8 s1).
Proof.
  intros Hc Hs Hn. unfold cut. cbn [andb]. destruct (Nat.ltb_spec n (length (utf8 s))) as [Hl|Hl].
  - destruct (cont (nth n (utf8 s) 0)) eqn:E1; [|apply utf8_boundary; assumption].
    destruct (utf8_no_three s Hc Hs n Hl E1) as [H1 H2].
    destruct (cont (nth (n - 1) (utf8 s) 0)) eqn:E2; [|apply utf8_boundary; [assumption|lia|assumption]].
    destruct (H2 eq_refl) as [H3 H4]. apply utf8_boundary; [assumption|lia|assumption].
  - exists s, []. rewrite app_nil_r. split; [reflexivity|lia].
Qed.

Lemma utf8_prefix_cmp s1 s2 t1 t2 : s1 ++ s2 = t1 ++ t2 -> Forall is_char (s1 ++ s2) ->
  (length (utf8 s1) <= length (utf8 t1))%nat -> exists mid, t1 = s1 ++ mid.
Proof.
  revert t1. induction s1 as [|c s1 IH]; intros t1 E Hc Hl; [exists t1; reflexivity|].
  destruct t1 as [|d t1].
  - exfalso. inversion Hc as [|? ? Hcc _]; subst. destruct (utf8_char_shape c Hcc) as (a & tl & E2 & _).
    cbn [utf8 flat_map] in Hl. rewrite E2, app_length in Hl. cbn in Hl. lia.
  - cbn [app] in E, Hc. injection E as <- E. inversion Hc as [|? ? Hcc Hc']; subst.
    cbn [utf8 flat_map] in Hl. fold (utf8 s1) in Hl. fold (utf8 t1) in Hl. rewrite !app_length in Hl.
    destruct (IH t1 E Hc' ltac:(lia)) as [mid ->]. exists mid. reflexivity.
Qed.

Lemma split_loop_utf8 m s size : Forall is_char s -> Forall (fun c => c < 0x10000) s ->
  N.of_nat (length (utf8 s)) < 2 ^ 63 -> N.of_nat size < U64 -> (3 <= size)%nat ->
  forall fuel s1 s2, s = s1 ++ s2 -> (length (utf8 s2) < fuel)%nat ->
  (s1 <> [] -> s2 <> [] -> size < length (utf8 s))%nat ->
  exists chunks, split_loop fuel m (mkDvb 21 (utf8 s)) (N.of_nat size) (N.of_nat (length (utf8 s1))) =
    Ok (map (fun c => mkDvb 21 (utf8 c)) chunks) /\ concat chunks = s2.
Proof.
  intros Hc Hs Hlen Hsz Hroom. assert (Hb : bytes (utf8 s)) by (apply utf8_bytes; assumption).
  induction fuel as [|fuel IH]; intros s1 s2 Es Hf Hne; [lia|].
  assert (El : length (utf8 s) = (length (utf8 s1) + length (utf8 s2))%nat) by (rewrite Es, utf8_app, app_length; reflexivity).
  destruct s2 as [|c s2].
  - exists []. cbn [split_loop t_data t_cp map concat]. cbn in El.
    destruct (N.ltb_spec (N.of_nat (length (utf8 s1))) (N.of_nat (length (utf8 s)))); [lia|]. auto.
  - assert (Hcc : is_char c).
    { rewrite Es in Hc. apply Forall_app in Hc as [_ Hc]. inversion Hc; assumption. }
    assert (Hpos : (0 < length (utf8 (c :: s2)))%nat).
    { destruct (utf8_char_shape c Hcc) as (a & tl & E2 & _). cbn [utf8 flat_map]. rewrite E2. cbn. lia. }
    set (skip := length (utf8 s1)) in *. set (len := length (utf8 s)) in *.
    pose proof (split_step fuel m (mkDvb 21 (utf8 s)) (N.of_nat size) skip) as ST. cbv zeta in ST. rewrite Nat2N.id in ST.
    cbn [t_data t_cp] in ST. fold len in ST. change (21 =? 21) with true in ST.
    set (n0 := Nat.min len (skip + size)) in *. set (n := cut true (utf8 s) n0) in *.
    destruct (cut_bounds true (utf8 s) n0) as (B1 & B2 & B3). fold n in B1, B2, B3. fold len in B3.
    assert (Hn0 : (n0 <= len)%nat /\ (n0 <= skip + size)%nat /\ (n0 = len \/ n0 = skip + size)%nat) by (unfold n0; lia).
    destruct (cut_boundary s n0 Hc Hs ltac:(fold len; lia)) as (t1 & t2 & Et & En). fold n in En.
    clearbody n0.
    assert (Hn : (skip < n <= len)%nat).
    { destruct (Nat.leb_spec len n0) as [L|L]; [rewrite B3 by auto; lia|]. lia. }
    rewrite ST; clear ST; [|assumption|assumption|lia|intros _; exact Hsz| |lia|lia].
    2:{ intros Hk. assert (s1 <> []) by (intros ->; apply Hk; reflexivity). specialize (Hne H ltac:(discriminate)). lia. }
    destruct (utf8_prefix_cmp s1 (c :: s2) t1 t2) as [mid Em].
    { congruence. } { rewrite <- Es. assumption. } { fold skip. lia. }
    assert (E2 : c :: s2 = mid ++ t2).
    { apply (app_inv_head s1). rewrite app_assoc, <- Em, <- Et. symmetry. exact Es. }
    assert (Lm : length (utf8 t1) = (skip + length (utf8 mid))%nat) by (rewrite Em, utf8_app, app_length; reflexivity).
    assert (L2 : length (utf8 (c :: s2)) = (length (utf8 mid) + length (utf8 t2))%nat) by (rewrite E2, utf8_app, app_length; reflexivity).
    rewrite En. destruct (IH t1 t2 Et ltac:(lia)) as (chunks & -> & C).
    { intros _ Ht2. destruct t2 as [|d t2]; [congruence|].
      assert (Hd : (0 < length (utf8 (d :: t2)))%nat).
      { rewrite Et in Hc. apply Forall_app in Hc as [_ Hd]. inversion Hd as [|? ? Hdd _]; subst.
        destruct (utf8_char_shape d Hdd) as (a & tl & E3 & _). cbn [utf8 flat_map]. rewrite E3. cbn. lia. }
      destruct (Nat.leb_spec len n0) as [L|L]; [specialize (B3 (or_intror L)); lia|].
      fold len. destruct s1 as [|e s1].
      - cbn in skip. lia.
      - apply Hne; discriminate. }
    cbn [bind]. exists (mid :: chunks). cbn [map concat]. split.
    + do 3 f_equal. rewrite Lm. replace (skip + length (utf8 mid) - skip)%nat with (length (utf8 mid)) by lia.
      rewrite Es, utf8_app. unfold skip. rewrite skipn_app, skipn_all, Nat.sub_diag. cbn [app skipn].
      rewrite E2, utf8_app, firstn_app, firstn_all, Nat.sub_diag, firstn_O, app_nil_r. reflexivity.
    + rewrite C. symmetry. exact E2.
Qed.

(** ** no room *)
Lemma split_stuck m t : t_cp t <> 21 -> t_data t <> [] -> forall fuel, split_loop fuel m t 0 0 = Hang.
Proof.
  intros Hc Hd. induction fuel as [|fuel IH]; [reflexivity|]. cbn [split_loop].
  assert (Hl : (0 < length (t_data t))%nat) by (destruct (t_data t); [congruence|cbn; lia]).
  destruct (N.ltb_spec 0 (N.of_nat (length (t_data t)))); [|lia].
  change (addw U64 m 0 0) with (@Ok N 0). cbn [bind]. rewrite N.min_0_r.
  change UTF8 with 21. destruct (N.eqb_spec (t_cp t) 21); [contradiction|]. cbn [andb bind].
  change (0 <=? 0) with true. destruct (N.leb_spec 0 (N.of_nat (length (t_data t)))); [|lia]. cbn [andb].
  unfold slice. cbn [Nat.leb Nat.sub N.to_nat]. rewrite IH. reflexivity.
Qed.

Lemma split_stuck_utf8 m c s size : is_char c -> Forall is_char s -> size < 3 ->
  size < N.of_nat (length (utf8_char c)) -> forall fuel, split_loop fuel m (mkDvb 21 (utf8 (c :: s))) size 0 = Hang.
Proof.
  intros Hc Hs Hsz Hl. set (d := utf8 (c :: s)).
  assert (Hb : bytes d) by (apply utf8_bytes; constructor; assumption).
  destruct (utf8_char_shape c Hc) as (a & tl & E & Ha & Ht & _ & _). rewrite E in Hl.
  assert (Ed : d = (a :: tl) ++ utf8 s) by (unfold d; cbn [utf8 flat_map]; rewrite E; reflexivity).
  assert (Hld : size < N.of_nat (length d)) by (rewrite Ed, app_length; lia).
  assert (Hnx : (if size <? N.of_nat (length d) then back_off m 2 d size else Ok size) = Ok 0).
  { destruct (N.ltb_spec size (N.of_nat (length d))); [|lia].
    assert (N0 : nth 0 d 0 = a) by (rewrite Ed; reflexivity).
    assert (Nk : forall k, (1 <= k < length (a :: tl))%nat -> cont (nth k d 0) = true).
    { intros k Hk. rewrite Ed, app_nth1 by lia. destruct k as [|k]; [lia|]. cbn [nth]. rewrite Forall_forall in Ht. apply Ht.
      apply nth_In. cbn in Hk. lia. }
    cbn [back_off]. destruct (N.ltb_spec size (N.of_nat (length d))); [|lia].
    rewrite get_nth_ok by lia. cbn [bind]. rewrite land_cont by (apply bytes_nth; assumption).
    assert (size = 0 \/ size = 1 \/ size = 2) as [->|[->| ->]] by lia.
    - change (N.to_nat 0) with 0%nat. rewrite N0, Ha. reflexivity.
    - change (N.to_nat 1) with 1%nat. rewrite Nk by lia. cbn [negb].
      change (subw U64 m 1 1) with (@Ok N 0). cbn [bind].
      destruct (N.ltb_spec 0 (N.of_nat (length d))); [|lia]. rewrite get_nth_ok by lia. cbn [bind].
      rewrite land_cont by (apply bytes_nth; assumption). change (N.to_nat 0) with 0%nat. rewrite N0, Ha. reflexivity.
    - change (N.to_nat 2) with 2%nat. rewrite Nk by lia. cbn [negb].
      change (subw U64 m 2 1) with (@Ok N 1). cbn [bind].
      destruct (N.ltb_spec 1 (N.of_nat (length d))); [|lia]. rewrite get_nth_ok by lia. cbn [bind].
      rewrite land_cont by (apply bytes_nth; assumption). change (N.to_nat 1) with 1%nat. rewrite Nk by lia. reflexivity. }
  induction fuel as [|fuel IH]; [reflexivity|]. cbn [split_loop t_data t_cp].
  destruct (N.ltb_spec 0 (N.of_nat (length d))); [|lia].
  assert (EA : addw U64 m 0 size = Ok size).
  { unfold addw, U64. destruct (N.ltb_spec (0 + size) 18446744073709551616); [f_equal; lia|lia]. }
  rewrite EA. cbn [bind]. rewrite N.min_r by lia. change (21 =? UTF8) with true. cbn [andb]. rewrite Hnx. cbn [bind].
  change (0 <=? 0) with true. destruct (N.leb_spec 0 (N.of_nat (length d))); [|lia]. cbn [andb].
  unfold slice. cbn [Nat.leb Nat.sub N.to_nat]. rewrite IH. reflexivity.
Qed.

(** an enormous size: one piece *)
Lemma split_whole fuel m t size : bytes (t_data t) -> t_data t <> [] -> N.of_nat (length (t_data t)) < 2 ^ 63 ->
  2 ^ 63 <= size < U64 -> (2 <= fuel)%nat -> split_loop fuel m t size 0 = Ok [mkDvb (t_cp t) (t_data t)].
Proof.
  intros Hb Hd Hl Hs Hf. destruct fuel as [|[|fuel]]; [lia|lia|]. 
  assert (Hpos : (0 < length (t_data t))%nat) by (destruct (t_data t); [congruence|cbn; lia]).
  pose proof (split_step (S fuel) m t size 0 Hb Hl Hpos) as ST. cbv zeta in ST.
  change (N.of_nat 0) with 0 in ST. rewrite Nat.add_0_l, Nat.min_l in ST.
  2:{ change (2 ^ 63) with 9223372036854775808 in *. lia. }
  destruct (cut_bounds (t_cp t =? 21) (t_data t) (length (t_data t))) as (_ & _ & B). rewrite B in ST by (right; lia).
  rewrite ST; [|tauto|tauto|change (2 ^ 63) with 9223372036854775808 in *; lia|lia].
  cbn [split_loop]. destruct (N.ltb_spec (N.of_nat (length (t_data t))) (N.of_nat (length (t_data t)))); [lia|].
  cbn [bind]. rewrite Nat.sub_0_r, skipn_O, firstn_all. reflexivity.
Qed.
