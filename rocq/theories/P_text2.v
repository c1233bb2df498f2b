(** Proofs about DVB text on the wire, splitting, truncation and language codes. *)
From Coq Require Import String.
From Verif Require Import Prelude Layout Facts M_textdata M_text S_textdata S_text P_text.

(** ** wire format *)
Lemma dvb_bytes_spec m t : t_cp t < 256 ->
  dvb_bytes m t = Ok (match t_data t with [] => [] | _ => selector (t_cp t) ++ t_data t end).
Proof.
  intros Hc. unfold dvb_bytes, selector. destruct (t_data t) as [|b d]; [reflexivity|]. cbn [length Nat.eqb].
  change ISO6937 with 0. change ISO8859_4 with 4. change ISO8859_15 with 15.
  destruct (N.eqb_spec (t_cp t) 0); [reflexivity|]. destruct (N.leb_spec (t_cp t) 4); [reflexivity|].
  destruct (N.leb_spec (t_cp t) 15); [|reflexivity].
  unfold subw. destruct (N.leb_spec 4 (t_cp t)); [|lia]. reflexivity.
Qed.

Lemma dvb_assemble_spec m t dst : t_cp t < 256 ->
  dvb_assemble m t dst = Ok (dst ++ match t_data t with [] => [] | _ => selector (t_cp t) ++ t_data t end).
Proof. intros H. unfold dvb_assemble. rewrite dvb_bytes_spec by assumption. reflexivity. Qed.

Lemma dvb_size_spec t :
  dvb_size t = length (match t_data t with [] => [] | _ => selector (t_cp t) ++ t_data t end).
Proof.
  unfold dvb_size, selector. destruct (t_data t) as [|b d]; [reflexivity|]. cbn [length Nat.eqb].
  change ISO6937 with 0. change ISO8859_4 with 4. rewrite app_length.
  destruct (t_cp t =? 0); [reflexivity|]. destruct (t_cp t <=? 4); [reflexivity|].
  destruct (t_cp t <=? 15); reflexivity.
Qed.

Definition wire (t : dvb) : list N := match t_data t with [] => [] | _ => selector (t_cp t) ++ t_data t end.

Lemma wire_bytes t : t_cp t < 256 -> bytes (t_data t) -> bytes (wire t).
Proof.
  intros Hc Hb. unfold wire. destruct (t_data t) as [|b d]; [constructor|]. apply Forall_app. split; [|assumption].
  unfold selector. destruct (t_cp t =? 0); [constructor|]. destruct (t_cp t <=? 4); [repeat constructor; lia|].
  destruct (t_cp t <=? 15); repeat constructor; lia.
Qed.

Lemma dvb_assemble_sized_spec m t dst : t_cp t < 256 ->
  dvb_assemble_sized m t dst = Ok (dst ++ N.of_nat (dvb_size t) mod 256 :: wire t).
Proof.
  intros H. unfold dvb_assemble_sized. rewrite dvb_assemble_spec by assumption. cbn [bind]. fold (wire t).
  unfold sub_idx. rewrite !app_length. cbn [length].
  destruct (Nat.leb_spec (length dst) (length dst + 1 + length (wire t))); [|lia]. cbn [bind].
  destruct (Nat.leb_spec 1 (length dst + 1 + length (wire t) - length dst)); [|lia]. cbn [bind].
  unfold set. rewrite !app_length. cbn [length].
  destruct (Nat.ltb_spec (length dst) (length dst + 1 + length (wire t))); [|lia]. f_equal.
  rewrite <- app_assoc. rewrite firstn_app, Nat.sub_diag, firstn_all, firstn_O, app_nil_r. f_equal.
  rewrite dvb_size_spec. fold (wire t).
  replace (length dst + 1 + length (wire t) - length dst - 1)%nat with (length (wire t)) by lia. f_equal.
  change (S (length dst)) with (1 + length dst)%nat. rewrite skipn_app, skipn_all2 by lia. cbn [app].
  replace (1 + length dst - length dst)%nat with 1%nat by lia. reflexivity.
Qed.

Lemma dvb_from_total m b : exists t, dvb_from m b = Ok t.
Proof.
  unfold dvb_from. destruct b as [|x b]; [eexists; reflexivity|]. cbn [get nth_error bind].
  destruct (N.eqb_spec x UTF8); [eexists; reflexivity|]. destruct (N.leb_spec 0x20 x); [eexists; reflexivity|].
  destruct (N.ltb_spec x 0x10).
  - unfold addw, U8. destruct (N.ltb_spec (x + 4) 256); [|lia]. eexists. reflexivity.
  - destruct (N.eqb_spec x 0x10); [|eexists; reflexivity].
    destruct b as [|y [|z b]]; try (eexists; reflexivity).
Qed.

(** exact value *)
Lemma dvb_from_spec m x b : dvb_from m (x :: b) = Ok (
  if x =? 21 then mkDvb 21 b
  else if 0x20 <=? x then mkDvb 0 (x :: b)
  else if x <? 0x10 then mkDvb (x + 4) b
  else match b with
       | y :: z :: d => if x =? 0x10 then mkDvb z d else mkDvb 0 [63]
       | _ => mkDvb 0 [63]
       end).
Proof.
  unfold dvb_from. cbn [get nth_error bind]. change UTF8 with 21.
  destruct (x =? 21); [reflexivity|]. destruct (0x20 <=? x); [reflexivity|].
  destruct (N.ltb_spec x 0x10).
  - unfold addw, U8. destruct (N.ltb_spec (x + 4) 256); [|lia]. reflexivity.
  - destruct b as [|y [|z b]]; [rewrite andb_false_r; reflexivity|rewrite andb_false_r; reflexivity|].
    destruct (x =? 0x10); reflexivity.
Qed.

Lemma reread_iff m t : t_cp t < 256 ->
  (exists w, dvb_assemble m t [] = Ok w /\ dvb_from m w = Ok t) <-> rereadable (t_cp t) (t_data t).
Proof.
  intros Hc. rewrite dvb_assemble_spec by assumption. cbn [app]. destruct t as [cp data]. cbn [t_cp t_data] in *.
  unfold rereadable. destruct data as [|b d].
  - split.
    + intros (w & [= <-] & H). cbn in H. injection H as <-. auto.
    + intros [[_ ->]|[H _]]; [|congruence]. eexists. split; reflexivity.
  - assert (L : forall A (x : A) l, l <> x :: l) by (intros A x l E; apply (f_equal (@length A)) in E; cbn in E; lia).
    assert (L2 : forall A (x y : A) l, l <> x :: y :: l) by (intros A x y l E; apply (f_equal (@length A)) in E; cbn in E; lia).
    assert (L3 : forall A (x y z : A) l, l <> x :: y :: z :: l) by (intros A x y z l E; apply (f_equal (@length A)) in E; cbn in E; lia).
    unfold selector. split.
    + intros (w & [= <-] & H). right. split; [discriminate|]. cbn [hd].
      destruct (N.eqb_spec cp 0) as [->|H0].
      { left. split; [reflexivity|]. cbn [app] in H. rewrite dvb_from_spec in H.
        destruct (N.eqb_spec b 21) as [->|H21]; [exfalso; injection H as E1; discriminate|].
        destruct (N.leb_spec 0x20 b); [lia|].
        destruct (N.ltb_spec b 0x10). { exfalso. injection H as _ E. exact (L _ _ _ E). }
        exfalso. destruct d as [|y [|z d]].
        - injection H as E. lia.
        - injection H as E. lia.
        - destruct (N.eqb_spec b 0x10) as [->|Hb]; [injection H as _ E; exact (L3 _ _ _ _ _ E)|injection H as E; lia]. }
      destruct (N.leb_spec cp 4); [right; left; lia|].
      destruct (N.leb_spec cp 15); [right; left; lia|].
      destruct (N.eqb_spec cp 21) as [E21|E21]; [auto|]. exfalso.
      cbn [app] in H. rewrite dvb_from_spec in H.
      destruct (N.eqb_spec cp 21); [congruence|].
      destruct (N.leb_spec 0x20 cp); [injection H as E; lia|].
      destruct (N.ltb_spec cp 0x10); [lia|].
      destruct d as [|z d]; [injection H as E; lia|].
      destruct (N.eqb_spec cp 0x10); [injection H as _ E; exact (L2 _ _ _ _ E)|injection H as E; lia].
    + intros [[H _]|[_ H]]; [discriminate|]. eexists. split; [reflexivity|]. cbn [hd] in H.
      destruct H as [[-> H]|[H| ->]].
      * change (0 =? 0) with true. cbv iota. cbn [app]. rewrite dvb_from_spec. destruct (N.eqb_spec b 21); [lia|]. destruct (N.leb_spec 0x20 b); [reflexivity|lia].
      * destruct (N.eqb_spec cp 0); [lia|]. destruct (N.leb_spec cp 4).
        -- cbn [app]. rewrite dvb_from_spec. reflexivity.
        -- destruct (N.leb_spec cp 15); [|lia]. cbn [app]. rewrite dvb_from_spec.
           destruct (N.eqb_spec (cp - 4) 21); [lia|]. destruct (N.leb_spec 0x20 (cp - 4)); [lia|].
           destruct (N.ltb_spec (cp - 4) 0x10); [|lia]. do 2 f_equal. lia.
      * reflexivity.
Qed.

Lemma rewrite_iff m b : bytes b ->
  (exists t, dvb_from m b = Ok t /\ dvb_assemble m t [] = Ok b) <-> stable b.
Proof.
  intros Hb. destruct b as [|x b].
  - split; [left; reflexivity|]. intros _. exists dvb_default. split; reflexivity.
  - rewrite dvb_from_spec. inversion Hb as [|? ? Hx Hb']; subst.
    assert (L : forall A (x : A) l, l <> x :: l) by (intros A y l E; apply (f_equal (@length A)) in E; cbn in E; lia).
    assert (K : forall t w, t_cp t < 256 -> dvb_assemble m t [] = Ok w <-> wire t = w).
    { intros t w H. rewrite dvb_assemble_spec by assumption. cbn [app]. fold (wire t). split; [intros [= E]; exact E|intros <-; reflexivity]. }
    split.
    + intros (t & [= <-] & H). unfold stable. cbn [hd length].
      destruct (N.eqb_spec x 21) as [->|H21].
      { apply K in H; [|cbn; lia]. cbn [wire t_data t_cp] in H. destruct b as [|y b]; [discriminate|]. right; right; left. cbn. lia. }
      destruct (N.leb_spec 0x20 x); [auto|].
      destruct (N.ltb_spec x 0x10).
      { apply K in H; [|cbn; lia]. unfold wire in H. cbn [t_data t_cp] in H. destruct b as [|y b]; [discriminate|].
        right; right; left. split; [|cbn; lia]. right. unfold selector in H.
        destruct (N.eqb_spec (x + 4) 0); [lia|]. destruct (N.leb_spec (x + 4) 4).
        - injection H as E. lia.
        - destruct (N.leb_spec (x + 4) 15); [lia|]. cbn [app] in H. injection H as E. lia. }
      assert (Q : dvb_assemble m (mkDvb 0 [63]) [] = Ok (x :: b) -> False).
      { intros Q. apply K in Q; [|cbn; lia]. cbn in Q. injection Q as E _. lia. }
      destruct b as [|y [|z d]]; [exfalso; auto|exfalso; auto|].
      destruct (N.eqb_spec x 0x10) as [->|Hne]; [|exfalso; auto].
      inversion Hb' as [|? ? Hy Hb2]; subst. inversion Hb2 as [|? ? Hz Hb3]; subst.
      apply K in H; [|cbn; assumption]. unfold wire in H. cbn [t_data t_cp] in H. destruct d as [|w d]; [discriminate|].
      right; right; right. unfold selector in H.
      destruct (N.eqb_spec z 0) as [->|Hz0].
      { exfalso. cbn [app] in H. apply (f_equal (@length N)) in H. cbn in H. lia. }
      destruct (N.leb_spec z 4).
      * cbn [app] in H. assert (y = 0) by congruence. subst y. exists z, (w :: d). split; [reflexivity|]. split; [lia|discriminate].
      * exfalso. apply (f_equal (@length N)) in H. destruct (z <=? 15); cbn in H; lia.
    + intros H. eexists. split; [reflexivity|]. unfold stable in H. cbn [hd length] in H.
      destruct H as [H|[H|[[H Hl]|(cp & d & E & Hcp & Hd)]]].
      * discriminate.
      * destruct (N.eqb_spec x 21); [lia|]. destruct (N.leb_spec 0x20 x); [|lia]. reflexivity.
      * destruct b as [|y b]; [cbn in Hl; lia|]. destruct (N.eqb_spec x 21) as [->|H21]; [reflexivity|].
        destruct (N.leb_spec 0x20 x); [lia|]. destruct (N.ltb_spec x 0x10); [|lia].
        apply K; [cbn; lia|]. unfold wire, selector. cbn [t_data t_cp].
        destruct (N.eqb_spec (x + 4) 0); [lia|]. destruct (N.leb_spec (x + 4) 4); [lia|].
        destruct (N.leb_spec (x + 4) 15); [|lia]. cbn [app]. f_equal. lia.
      * injection E as -> ->. change (0x10 =? 21) with false. change (0x20 <=? 0x10) with false.
        change (0x10 <? 0x10) with false. change (0x10 =? 0x10) with true. cbv iota.
        apply K; [cbn; lia|]. unfold wire, selector. cbn [t_data t_cp]. destruct d as [|w d]; [congruence|].
        destruct (N.eqb_spec cp 0); [lia|]. destruct (N.leb_spec cp 4); [|lia]. reflexivity.
Qed.

Lemma from_str_cp m s cp t : cp < 256 -> dvb_from_str m s cp = Ok t -> t_cp t <> 0 -> 1 <= t_cp t <= 15 \/ t_cp t = 21.
Proof.
  intros Hc. unfold dvb_from_str. change UTF8 with 21. destruct (N.eqb_spec cp 21); [intros [= <-]; cbn; auto|].
  destruct (codepage_map cp) as [map|] eqn:E; [|intros [= <-]; cbn; auto].
  destruct (pages_good cp) as [[E1 _]|(map' & page & E1 & E2 & G)]; [congruence|].
  apply page_in in E2. destruct (supported _ _ E2) as (_ & _ & _ & _ & H).
  destruct (encode_loop m map s); cbn [bind]; [|discriminate|discriminate]. intros [= <-]. cbn [t_cp]. intros. left. lia.
Qed.

(** display fails exactly for unknown code pages *)
Lemma display_error t : bytes (t_data t) ->
  dvb_display t = Ok None <-> (t_data t <> [] /\ t_cp t <> 21 /\ ~ In (t_cp t) (map fst pages)).
Proof.
  intros Hb. destruct t as [cp data]. cbn [t_cp t_data] in *. split.
  - intros H. destruct data as [|b d]; [discriminate|]. split; [discriminate|].
    unfold dvb_display in H. cbn [t_data t_cp length Nat.eqb] in H. change UTF8 with 21 in H.
    destruct (N.eqb_spec cp 21); [discriminate|]. split; [assumption|].
    intros Hi. apply in_map_iff in Hi as [[c p] [E Hi]]. cbn in E. subst c.
    pose proof (display_page cp p (b :: d) Hi Hb) as H2. unfold dvb_display in H2. cbn [t_data t_cp length Nat.eqb] in H2.
    change UTF8 with 21 in H2. destruct (N.eqb_spec cp 21); [contradiction|]. congruence.
  - intros (H1 & H2 & H3). unfold dvb_display. cbn [t_data t_cp]. destruct data as [|b d]; [congruence|]. cbn [length Nat.eqb].
    change UTF8 with 21. destruct (N.eqb_spec cp 21); [contradiction|]. rewrite (unsupported cp H3). reflexivity.
Qed.

(** ** truncate *)
Lemma truncate_short t size : (length (t_data t) <= size)%nat -> dvb_truncate t size = Ok t.
Proof. intros H. unfold dvb_truncate. destruct (Nat.ltb_spec size (length (t_data t))); [lia|reflexivity]. Qed.

Lemma truncate_long t size : (3 <= size < length (t_data t))%nat ->
  dvb_truncate t size = Ok (mkDvb (t_cp t) (firstn (size - 3) (t_data t) ++ [46; 46; 46])).
Proof.
  intros H. unfold dvb_truncate. destruct (Nat.ltb_spec size (length (t_data t))); [|lia].
  unfold sub_idx. destruct (Nat.leb_spec 1 size); [|lia]. destruct (Nat.leb_spec 2 size); [|lia].
  destruct (Nat.leb_spec 3 size); [|lia]. cbn [bind].
  unfold resize. replace (size - length (t_data t))%nat with 0%nat by lia. cbn [repeat]. rewrite app_nil_r.
  set (d := firstn size (t_data t)). assert (Hd : length d = size) by (unfold d; rewrite firstn_length; lia).
  replace (firstn (size - 3) (t_data t)) with (firstn (size - 3) d).
  2:{ unfold d. rewrite firstn_firstn. f_equal. lia. }
  clearbody d. clear H.
  assert (E : exists p x y z, d = p ++ [x; y; z] /\ length p = (size - 3)%nat).
  { exists (firstn (size - 3) d). assert (L : length (skipn (size - 3) d) = 3%nat) by (rewrite skipn_length; lia).
    destruct (skipn (size - 3) d) as [|x [|y [|z [|w l]]]] eqn:E; cbn in L; try lia.
    exists x, y, z. rewrite <- E, firstn_skipn. split; [reflexivity|]. rewrite firstn_length. lia. }
  destruct E as (p & x & y & z & -> & Hp).
  assert (S1 : set (p ++ [x; y; z]) (size - 1) 46 = Ok (p ++ [x; y; 46])).
  { unfold set. rewrite app_length. cbn [length]. destruct (Nat.ltb_spec (size - 1) (length p + 3)); [|lia].
    rewrite firstn_app, skipn_app. replace (size - 1 - length p)%nat with 2%nat by lia.
    replace (S (size - 1) - length p)%nat with 3%nat by lia. rewrite firstn_all2, skipn_all2 by lia.
    cbn [firstn skipn app]. rewrite <- app_assoc. reflexivity. }
  rewrite S1. cbn [bind].
  assert (S2 : set (p ++ [x; y; 46]) (size - 2) 46 = Ok (p ++ [x; 46; 46])).
  { unfold set. rewrite app_length. cbn [length]. destruct (Nat.ltb_spec (size - 2) (length p + 3)); [|lia].
    rewrite firstn_app, skipn_app. replace (size - 2 - length p)%nat with 1%nat by lia.
    replace (S (size - 2) - length p)%nat with 2%nat by lia. rewrite firstn_all2, skipn_all2 by lia.
    cbn [firstn skipn app]. rewrite <- app_assoc. reflexivity. }
  rewrite S2. cbn [bind].
  assert (S3 : set (p ++ [x; 46; 46]) (size - 3) 46 = Ok (p ++ [46; 46; 46])).
  { unfold set. rewrite app_length. cbn [length]. destruct (Nat.ltb_spec (size - 3) (length p + 3)); [|lia].
    rewrite firstn_app, skipn_app. replace (size - 3 - length p)%nat with 0%nat by lia.
    replace (S (size - 3) - length p)%nat with 1%nat by lia. rewrite firstn_all2, skipn_all2 by lia.
    cbn [firstn skipn app]. rewrite app_nil_r. reflexivity. }
  rewrite S3. cbn [bind]. do 2 f_equal. rewrite firstn_app. replace (size - 3 - length p)%nat with 0%nat by lia.
  rewrite firstn_all2 by lia. rewrite firstn_O, app_nil_r. reflexivity.
Qed.

Lemma truncate_panic t size : dvb_truncate t size = Panic <-> (size < 3 /\ size < length (t_data t))%nat.
Proof.
  split.
  - intros H. destruct (Nat.ltb_spec size (length (t_data t))) as [Hl|Hl]; [|rewrite truncate_short in H by lia; discriminate].
    split; [|assumption]. destruct (Nat.ltb_spec size 3); [assumption|]. rewrite truncate_long in H by lia. discriminate.
  - intros [H1 H2]. unfold dvb_truncate. destruct (Nat.ltb_spec size (length (t_data t))); [|lia].
    destruct size as [|[|[|size]]]; [| | |lia]; destruct (t_data t) as [|a [|b [|c l]]]; cbn [length] in *; try lia; reflexivity.
Qed.

(** ** language codes *)
Lemma beq_eq a b : beq a b = true <-> a = b.
Proof.
  revert b. induction a as [|x a IH]; destruct b as [|y b]; cbn; try (split; [discriminate|congruence] || (split; reflexivity)).
  rewrite andb_true_iff, N.eqb_eq, IH. split; [intros [-> ->]; reflexivity|intros [= -> ->]; auto].
Qed.

Lemma find2_some l code r : find2 l code = Some r ->
  exists a1 a2 a3, In (a1, a2, a3) l /\ code = bytes_of a1 /\ r = bytes_of a3.
Proof.
  induction l as [|[[a1 a2] a3] l IH]; cbn; [discriminate|].
  destruct (beq (bytes_of a1) code) eqn:E.
  - apply beq_eq in E. intros [= <-]. exists a1, a2, a3. auto.
  - intros H. destruct (IH H) as (b1 & b2 & b3 & Hi & H1 & H2). exists b1, b2, b3. auto.
Qed.

Lemma find3_some l code r : find3 l code = Some r ->
  exists a1 a2 a3, In (a1, a2, a3) l /\ (code = bytes_of a2 \/ code = bytes_of a3) /\ r = bytes_of a1.
Proof.
  induction l as [|[[a1 a2] a3] l IH]; cbn; [discriminate|].
  destruct (beq (bytes_of a2) code || beq (bytes_of a3) code) eqn:E.
  - apply orb_true_iff in E. rewrite !beq_eq in E. intros [= <-]. exists a1, a2, a3.
    split; [auto|]. split; [destruct E as [<-|<-]; auto|reflexivity].
  - intros H. destruct (IH H) as (b1 & b2 & b3 & Hi & H1 & H2). exists b1, b2, b3. auto.
Qed.

Lemma lang_sound code r : lang_convert code = Some r ->
  exists a1 a2 a3, In (a1, a2, a3) lang_list /\
    ((code = bytes_of a1 /\ r = bytes_of a3) \/ ((code = bytes_of a2 \/ code = bytes_of a3) /\ r = bytes_of a1)).
Proof.
  unfold lang_convert. destruct (length code) as [|[|[|[|n]]]]; try discriminate; intros H.
  - destruct (find2_some _ _ _ H) as (a1 & a2 & a3 & Hi & H1 & H2). exists a1, a2, a3. auto.
  - destruct (find3_some _ _ _ H) as (a1 & a2 & a3 & Hi & H1 & H2). exists a1, a2, a3. auto.
Qed.

Definition lang_row_ok (x : string * string * string) : bool :=
  let '(a1, a2, a3) := x in
  match lang_convert (bytes_of a1), lang_convert (bytes_of a2), lang_convert (bytes_of a3) with
  | Some r1, Some r2, Some r3 => beq r1 (bytes_of a3) && beq r2 (bytes_of a1) && beq r3 (bytes_of a1)
      && (length (bytes_of a1) =? 2)%nat && (length (bytes_of a2) =? 3)%nat && (length (bytes_of a3) =? 3)%nat
  | _, _, _ => false
  end.

Lemma lang_rows a1 a2 a3 : In (a1, a2, a3) lang_list ->
  lang_convert (bytes_of a1) = Some (bytes_of a3) /\ lang_convert (bytes_of a2) = Some (bytes_of a1) /\
  lang_convert (bytes_of a3) = Some (bytes_of a1) /\
  length (bytes_of a1) = 2%nat /\ length (bytes_of a2) = 3%nat /\ length (bytes_of a3) = 3%nat.
Proof.
  intros H. assert (G : forallb lang_row_ok lang_list = true) by (vm_compute; reflexivity).
  rewrite forallb_forall in G. apply G in H. unfold lang_row_ok in H.
  destruct (lang_convert (bytes_of a1)); [|discriminate]. destruct (lang_convert (bytes_of a2)); [|discriminate].
  destruct (lang_convert (bytes_of a3)); [|discriminate].
  rewrite !andb_true_iff, !beq_eq, !Nat.eqb_eq in H. destruct H as (((((-> & ->) & ->) & H1) & H2) & H3). auto 8.
Qed.
