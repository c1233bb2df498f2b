(** Descriptors: reading what was written, loops of descriptors, clones. *)
From Verif Require Import Prelude Layout Facts Facts2 S_utils S_text M_bytes M_utils M_text M_desc S_desc P_bytes P_utils P_text2 P_desc P_desc2 P_desc3.

(** ** one record: the outcome is determined *)
Lemma items_fun n l i1 : items_read n l i1 -> forall i2, items_read n l i2 -> i1 = i2.
Proof.
  induction 1 as [l|n x y l its R IH Hn]; intros i2 R2.
  - inversion R2; [reflexivity|lia].
  - cbn [app] in R2. apply items_head in R2; [|assumption]. destruct R2 as (x' & y' & l' & its' & E1 & E2 & -> & R').
    apply app_inj_len in E2; [|lia]. destruct E2 as [<- E2]. cbn [app] in E2.
    assert (Ey : N.of_nat (length y) = N.of_nat (length y')) by congruence. injection E2 as _ E2.
    apply app_inj_len in E2; [|lia]. destruct E2 as [<- <-]. f_equal. apply IH. assumption.
Qed.

Lemma reads_fun b t d1 d2 : reads b t d1 -> reads b t d2 -> d1 = d2.
Proof.
  intros R1 R2; destruct R1; inversion R2; subst; try reflexivity; try lia;
    try (exfalso; match goal with H : ~ In _ _ |- _ => apply H; cbn; tauto end).
  f_equal. f_equal. eapply items_fun; eassumption.
Qed.

Lemma parse_reads m t b d : bytes b -> (length b < 256)%nat -> reads b t d -> desc_parse m (tlv t b) = Ok d.
Proof.
  intros Hb Hl R. destruct (parse_outcome m t b Hb Hl) as [(d' & R' & ->)|(N & _)].
  - f_equal. eapply reads_fun; eassumption.
  - exfalso. eapply N; eassumption.
Qed.
Lemma parse_debug t b : bytes b -> (length b < 256)%nat ->
  (forall d, desc_parse Debug (tlv t b) = Ok d <-> reads b t d) /\
  (desc_parse Debug (tlv t b) = Panic <-> forall d, ~ reads b t d).
Proof.
  intros Hb Hl. destruct (parse_outcome Debug t b Hb Hl) as [(d' & R' & E)|(N & O1 & O2)].
  - rewrite E. split; [|split].
    + intros d. split; [intros H; assert (d = d') by congruence; subst; assumption|intros H; f_equal; eapply reads_fun; eassumption].
    + discriminate.
    + intros H. exfalso. eapply H; eassumption.
  - assert (E : desc_parse Debug (tlv t b) = Panic).
    { destruct (desc_parse Debug (tlv t b)) eqn:E; [exfalso|reflexivity|exfalso].
      - assert (NO : ~ oob t b) by (intros O; specialize (O1 O); discriminate). specialize (O2 NO). discriminate.
      - assert (NO : ~ oob t b) by (intros O; specialize (O1 O); discriminate). specialize (O2 NO). discriminate. }
    rewrite E. split; [|tauto]. intros d. split; [discriminate|]. intros R. exfalso. eapply N; eassumption.
Qed.
Lemma oob_noread t b : oob t b -> forall d, ~ reads b t d.
Proof.
  intros O d R. destruct O as [[-> O]|[[-> O]|[-> O]]]; inversion R; subst; try lia; try no_raw.
  destruct O as [O|(_ & _ & O)]; [lia|]. eapply O; eassumption.
Qed.
Lemma oob_dec t b : bytes b -> oob t b \/ ~ oob t b.
Proof.
  intros Hb. unfold oob.
  assert (D1 : forall P : Prop, (P \/ ~ P) -> forall k : N, (t = k /\ P) \/ ~ (t = k /\ P)).
  { intros P HP k. destruct (N.eq_dec t k); [|right; tauto]. destruct HP; [left|right]; tauto. }
  assert (D2 : forall P Q : Prop, (P \/ ~ P) -> (Q \/ ~ Q) -> ((P \/ Q) \/ ~ (P \/ Q))) by tauto.
  apply D2; [apply D1; lia|]. apply D2; [apply D1; lia|]. apply D1. apply D2; [lia|].
  destruct (loop_4E Debug (S (length (skipn 5 b))) [] (skipn 5 b) (len_at b 4)) as [(i & R & _)|(R & _)];
    [lia|apply bytes_skipn; assumption| |].
  - right. intros (_ & _ & X). eapply X; eassumption.
  - destruct (Nat.leb_spec 6 (length b)); [|right; lia].
    destruct (Nat.eq_dec (length b) (6 + len_at b 4 + len_at b (5 + len_at b 4))); [|right; lia].
    left. auto.
Qed.
Lemma parse_release t b : bytes b -> (length b < 256)%nat ->
  (desc_parse Release (tlv t b) = Panic <-> oob t b) /\ (~ oob t b -> exists d, desc_parse Release (tlv t b) = Ok d).
Proof.
  intros Hb Hl. destruct (parse_outcome Release t b Hb Hl) as [(d' & R' & E)|(N & O1 & O2)].
  - rewrite E. split; [split; [discriminate|]|eauto]. intros O. exfalso. eapply oob_noread; eassumption.
  - split; [split|]; [|assumption|assumption]. intros E. destruct (oob_dec t b Hb) as [O|O]; [assumption|].
    destruct (O2 O) as [d E']. congruence.
Qed.

(** ** what was written is read *)
Lemma reads_eq b t d d' : reads b t d -> d = d' -> reads b t d'.
Proof. intros R <-. assumption. Qed.

Fixpoint lookup (fs : list (nat * N)) (off w : nat) : option N :=
  match fs with
  | [] => None
  | (w', v) :: r => if (off =? 0)%nat then if (w =? w')%nat then Some v else None
                    else if (w' <=? off)%nat then lookup r (off - w') w else None
  end.
Lemma lookup_split fs : forall off w v, lookup fs off w = Some v ->
  exists pre post, fs = pre ++ (w, v) :: post /\ total_width pre = off.
Proof.
  induction fs as [|[w' v'] r IH]; intros off w v H; [discriminate|]. cbn [lookup] in H.
  destruct (Nat.eqb_spec off 0) as [->|Hn].
  - destruct (Nat.eqb_spec w w') as [->|]; [|discriminate]. injection H as <-. exists [], r. auto.
  - destruct (Nat.leb_spec w' off); [|discriminate]. apply IH in H. destruct H as (pre & post & -> & E).
    exists ((w', v') :: pre), post. split; [reflexivity|].
    change (total_width ((w', v') :: pre)) with (w' + total_width pre)%nat. lia.
Qed.
Lemma field_at fs l off w v : (total_width fs mod 8 = 0)%nat -> lookup fs off w = Some v ->
  field (layout fs ++ l) off w = v mod 2 ^ N.of_nat w.
Proof. intros H E. apply lookup_split in E. destruct E as (pre & post & -> & <-). apply field_layout. assumption. Qed.
Lemma field_at0 fs off w v : (total_width fs mod 8 = 0)%nat -> lookup fs off w = Some v ->
  field (layout fs) off w = v mod 2 ^ N.of_nat w.
Proof. intros H E. rewrite <- (app_nil_r (layout fs)). apply field_at; assumption. Qed.
Lemma field_val fs off w v : (total_width fs mod 8 = 0)%nat -> lookup fs off w = Some v -> v < 2 ^ N.of_nat w ->
  field (layout fs) off w = v.
Proof. intros H E L. rewrite (field_at0 fs off w v) by assumption. apply N.mod_small. assumption. Qed.

Lemma text_back t : text_ok t -> reread t -> text_read (text t) = t.
Proof.
  intros [H _] R. apply (reread_iff Debug t H) in R. destruct R as (w & E1 & E2).
  rewrite assemble_text in E1 by assumption. injection E1 as E1. cbn [app] in E1. rewrite <- E1, from_text in E2. congruence.
Qed.

Lemma flat_groups {A} (f : A -> list N) k l : (0 < k)%nat -> Forall (fun x => length (f x) = k) l ->
  length (flat_map f l) = (k * length l)%nat /\ all_groups k (flat_map f l) = map f l.
Proof.
  intros Hk F. assert (L : length (flat_map f l) = (k * length l)%nat).
  { induction F as [|x l Hx F IH]; cbn [flat_map length]; [lia|]. rewrite app_length, IH, Hx. lia. }
  split; [assumption|]. unfold all_groups. rewrite L. rewrite Nat.mul_comm, Nat.div_mul by lia. clear L.
  induction F as [|x l Hx F IH]; [reflexivity|]. cbn [flat_map length map]. rewrite groups_app by assumption. f_equal. exact IH.
Qed.
Lemma mult_mod k n : (0 < k)%nat -> ((k * n) mod k = 0)%nat.
Proof. intros H. rewrite Nat.mul_comm. apply Nat.mod_mul. lia. Qed.

Lemma map_id_on {A B} (f : A -> B) (g : B -> A) l : Forall (fun x => g (f x) = x) l -> map g (map f l) = l.
Proof. induction 1; cbn [map]; congruence. Qed.

Lemma firstn_len_app {A} k (a b : list A) : length a = k -> firstn k (a ++ b) = a.
Proof. intros <-. rewrite firstn_app, Nat.sub_diag, firstn_all, firstn_O, app_nil_r. reflexivity. Qed.
Lemma skipn_len_app {A} k (a b : list A) : length a = k -> skipn k (a ++ b) = b.
Proof. intros <-. rewrite skipn_app, Nat.sub_diag, skipn_all. reflexivity. Qed.
Lemma nth_len_app {A} k (a b : list A) d : length a = k -> nth k (a ++ b) d = nth 0 b d.
Proof. intros <-. rewrite app_nth2 by lia. f_equal. lia. Qed.

Ltac fval := first [apply field_val; [reflexivity|reflexivity|assumption]|assumption].

Lemma item_0A_len i : code_ok (d0A_code i) -> length (item_0A i) = 4%nat.
Proof. intros [_ H]. unfold item_0A. rewrite app_length, H. reflexivity. Qed.
Lemma item_58_len i : code_ok (d58_code i) -> length (item_58 i) = 13%nat.
Proof. intros [_ H]. unfold item_58. rewrite app_length, H, layout_length by reflexivity. reflexivity. Qed.

Lemma field_behind a fs k off w v : length a = k -> (total_width fs mod 8 = 0)%nat -> lookup fs off w = Some v -> v < 2 ^ N.of_nat w ->
  field (a ++ layout fs) (8 * k + off) w = v.
Proof. intros <- H E L. rewrite field_app. apply field_val; assumption. Qed.

Lemma div_back a k : k <> 0 -> a mod k = 0 -> k * (a / k) = a.
Proof. intros Hk H. pose proof (N.div_mod a k Hk). lia. Qed.

Lemma dec_nibs_lt n : forall v, dec_nibs n v < 16 ^ N.of_nat n.
Proof.
  induction n as [|n IH]; intros v; [reflexivity|]. cbn [dec_nibs].
  replace (16 ^ N.of_nat (S n)) with (16 * 16 ^ N.of_nat n) by (rewrite <- N.pow_succ_r'; f_equal; lia).
  specialize (IH (v / 10)). pose proof (N.mod_lt v 10 ltac:(lia)). lia.
Qed.
Lemma rate_back r b : r < 10 ^ 6 -> field b 56 28 = rate7 r mod 2 ^ N.of_nat 28 -> (88 <= 8 * length b)%nat ->
  field b 56 24 = dec_nibs 6 r.
Proof.
  intros Hr E Hl. rewrite (field_high b 56 24 4) by lia. change (24 + 4)%nat with 28%nat. rewrite E, rate7_eq.
  change (2 ^ N.of_nat 28) with 268435456. change (2 ^ N.of_nat 4) with 16.
  pose proof (dec_nibs_lt 6 r) as L. change (16 ^ N.of_nat 6) with 16777216 in L.
  rewrite N.mod_small by lia. apply N.div_mul. lia.
Qed.

Lemma minutes_hm h mi : h < 100 -> mi < 100 -> minutes (hm h mi) = 60 * h + mi /\ nibs_ok 4 (hm h mi) = true /\ nib_value 2 (hm h mi / 256) = h.
Proof.
  intros H1 H2. unfold minutes, hm. pose proof (dec_nibs_2_lt h). pose proof (dec_nibs_2_lt mi).
  assert (D : (dec_nibs 2 h * 256 + dec_nibs 2 mi) / 256 = dec_nibs 2 h) by dlia.
  assert (M : (dec_nibs 2 h * 256 + dec_nibs 2 mi) mod 256 = dec_nibs 2 mi) by dlia.
  rewrite nibs_ok_4, D, M. rewrite <- (nib2_mod (dec_nibs 2 h * 256 + _)), M, !nib2_dec, !dec_nibs_ok by assumption. auto.
Qed.
Lemma seconds_hms h mi s : h < 100 -> mi < 100 -> s < 100 ->
  seconds (hms h mi s) = 3600 * h + 60 * mi + s /\ nibs_ok 6 (hms h mi s) = true.
Proof.
  intros H1 H2 H3. unfold seconds, hms. pose proof (dec_nibs_2_lt h). pose proof (dec_nibs_2_lt mi). pose proof (dec_nibs_2_lt s).
  set (v := dec_nibs 2 h * 65536 + dec_nibs 2 mi * 256 + dec_nibs 2 s).
  assert (D : v / 65536 = dec_nibs 2 h) by (subst v; dlia).
  assert (D2 : (v / 256) mod 256 = dec_nibs 2 mi) by (subst v; dlia).
  assert (M : v mod 256 = dec_nibs 2 s) by (subst v; dlia).
  assert (D3 : v mod 65536 / 256 = dec_nibs 2 mi) by (subst v; dlia).
  assert (M2 : (v mod 65536) mod 256 = dec_nibs 2 s) by (subst v; dlia).
  rewrite nibs_ok_6, nibs_ok_4, D, D3, M2. rewrite <- (nib2_mod (v / 256)), <- (nib2_mod v), D2, M.
  rewrite !nib2_dec, !dec_nibs_ok by assumption. auto.
Qed.
Lemma hm_lt h mi : hm h mi < 65536.
Proof. unfold hm. pose proof (dec_nibs_2_lt h). pose proof (dec_nibs_2_lt mi). lia. Qed.

Lemma item_58_back i : ok_58i i -> reread (d58_code i) -> d58_offset i < 300 -> d58_next i < 300 ->
  good58 (item_58 i) /\ read_58 (item_58 i) = i.
Proof.
  intros (Hc & H1 & H2 & H3 & H4 & H5) Hr Ho Hn. pose proof (item_58_len i Hc) as L.
  unfold good58, read_58. unfold item_58 in *. destruct Hc as [Hc Hl].
  unfold MJD_END in H4.
  assert (Em : d58_time i / 86400 < 24949) by dlia.
  set (fs := [(6%nat, d58_region i); (1%nat, 1); (1%nat, d58_pol i);
          (16%nat, hm (d58_offset i / 60) (d58_offset i mod 60));
          (16%nat, MJD_EPOCH + d58_time i / 86400);
          (24%nat, hms (d58_time i / 3600 mod 24) (d58_time i / 60 mod 60) (d58_time i mod 60));
          (16%nat, hm (d58_next i / 60) (d58_next i mod 60))]) in *.
  destruct (minutes_hm (d58_offset i / 60) (d58_offset i mod 60)) as (A1 & A2 & A3); [dlia|dlia|].
  destruct (minutes_hm (d58_next i / 60) (d58_next i mod 60)) as (B1 & B2 & B3); [dlia|dlia|].
  destruct (seconds_hms (d58_time i / 3600 mod 24) (d58_time i / 60 mod 60) (d58_time i mod 60)) as (C1 & C2); [dlia|dlia|dlia|].
  assert (F0 : field (text (d58_code i) ++ layout fs) 24 6 = d58_region i) by (apply (field_behind _ fs 3 0 6); (assumption || reflexivity)).
  assert (F1 : field (text (d58_code i) ++ layout fs) 31 1 = d58_pol i) by (apply (field_behind _ fs 3 7 1); (assumption || reflexivity)).
  assert (F2 : field (text (d58_code i) ++ layout fs) 32 16 = hm (d58_offset i / 60) (d58_offset i mod 60))
    by (apply (field_behind _ fs 3 8 16); (assumption || reflexivity || apply hm_lt)).
  assert (F3 : field (text (d58_code i) ++ layout fs) 48 16 = MJD_EPOCH + d58_time i / 86400).
  { apply (field_behind _ fs 3 24 16); [assumption|reflexivity|reflexivity|]. change (2 ^ N.of_nat 16) with 65536. unfold MJD_EPOCH. lia. }
  assert (F4 : field (text (d58_code i) ++ layout fs) 64 24 = hms (d58_time i / 3600 mod 24) (d58_time i / 60 mod 60) (d58_time i mod 60))
    by (apply (field_behind _ fs 3 40 24); (assumption || reflexivity || apply hms_lt)).
  assert (F5 : field (text (d58_code i) ++ layout fs) 88 16 = hm (d58_next i / 60) (d58_next i mod 60))
    by (apply (field_behind _ fs 3 64 16); (assumption || reflexivity || apply hm_lt)).
  rewrite (field_high _ 32 8 8), (field_high _ 88 8 8) by (rewrite L; lia). change (8 + 8)%nat with 16%nat. change (2 ^ N.of_nat 8) with 256.
  rewrite F0, F1, F2, F3, F4, F5, A1, A2, A3, B1, B2, B3, C1, C2. split.
  - repeat split; try reflexivity; dlia.
  - rewrite firstn_len_app by assumption. rewrite text_back by assumption. destruct i as [c r p o t n]. cbn [d58_time d58_offset d58_next d58_region d58_pol d58_code] in *.
    unfold MJD_EPOCH in *. f_equal; dlia.
Qed.

Lemma len_sized t r : (length (text t) < 256)%nat -> len_at (sized t ++ r) 0 = length (text t).
Proof. intros H. unfold len_at, sized. cbn [app nth]. lia. Qed.

Lemma sized_at a t r k : length a = k -> (length (text t) < 256)%nat ->
  len_at (a ++ sized t ++ r) k = length (text t) /\ text_at (a ++ sized t ++ r) k = text_read (text t).
Proof.
  intros Ha Ht. assert (L : len_at (a ++ sized t ++ r) k = length (text t)).
  { unfold len_at. rewrite nth_len_app by assumption. unfold sized. cbn [app nth]. lia. }
  split; [assumption|]. unfold text_at. rewrite L. replace (S k) with (k + 1)%nat by lia.
  rewrite skipn_plus, skipn_len_app by assumption. unfold sized. cbn [app skipn]. rewrite firstn_len_app; reflexivity.
Qed.
Lemma two_sized a x y k : length a = k -> (length (text x) < 256)%nat -> (length (text y) < 256)%nat ->
  let b := a ++ sized x ++ sized y in
  len_at b k = length (text x) /\ text_at b k = text_read (text x) /\
  len_at b (S k + len_at b k) = length (text y) /\ text_at b (S k + len_at b k) = text_read (text y) /\
  length b = (2 + k + length (text x) + length (text y))%nat.
Proof.
  intros Ha Hx Hy b. destruct (sized_at a x (sized y) k Ha Hx) as [A1 A2]. subst b.
  destruct (sized_at (a ++ sized x) y [] (S k + length (text x))) as [B1 B2]; [rewrite app_length; unfold sized; cbn [length]; lia|assumption|].
  rewrite app_nil_r, <- app_assoc in B1, B2. rewrite A1. repeat split; try assumption.
  rewrite !app_length. unfold sized. cbn [length]. lia.
Qed.

Lemma raw_reads t b : left_raw t b -> reads b t (DRaw (mkRaw t b)).
Proof.
  intros H. destruct (in_dec N.eq_dec t supported) as [I|I]; [|apply rRaw; exact I].
  cbn [In supported] in I. repeat destruct I as [<-|I]; try contradiction; cbn [left_raw] in H.
  - apply r09'; exact H.
  - apply r0A'; exact H.
  - apply r0E'; exact H.
  - apply r41'; exact H.
  - apply r43'; exact H.
  - apply r44'; exact H.
  - apply r48'; exact H.
  - apply r4D'; exact H.
  - apply r4E'; exact H.
  - apply r52'; exact H.
  - apply r58'; exact H.
  - apply r5A'; exact H.
  - apply r83'; exact H.
Qed.
Lemma left_raw_other t b : ~ In t supported -> left_raw t b.
Proof.
  intros U. destruct t as [|p]; [exact I|].
  do 8 (try (destruct p as [p|p|]; try exact I)); exfalso; apply U; cbn; tauto.
Qed.
Lemma reads_raw t b d : reads b t (DRaw d) -> d = mkRaw t b /\ left_raw t b.
Proof. intros R. inversion R; subst; split; try reflexivity; try assumption. apply left_raw_other. assumption. Qed.

Lemma body_reads d : desc_ok d -> exact d -> reads (body d) (desc_tag d) d.
Proof.
  intros (F & Hl & NI) E. destruct d as [d|items|d|t|items|d|d|d|d|d|t|items|d|items|d]; cbn [body desc_tag fields_ok exact no_items] in *.
  - (* 09 *) destruct F as (F1 & F2 & F3). eapply reads_eq.
    + apply r09. rewrite app_length, layout_length by reflexivity. cbn. lia.
    + rewrite skipn_len_app by (rewrite layout_length; reflexivity).
      rewrite (field_at _ _ 0 16 (d09_caid d)), (field_at _ _ 19 13 (d09_pid d)) by reflexivity.
      rewrite !N.mod_small by assumption. destruct d; reflexivity.
  - (* 0A *) assert (F' : Forall (fun i => length (item_0A i) = 4%nat) items).
    { eapply Forall_impl; [|exact F]. intros i [H _]. apply item_0A_len; assumption. }
    destruct (flat_groups item_0A 4 items ltac:(lia) F') as [L G]. eapply reads_eq.
    + apply r0A. rewrite L. apply mult_mod. lia.
    + rewrite G. f_equal. apply map_id_on. rewrite Forall_forall in *. intros i Hi. specialize (F i Hi). specialize (E i Hi).
      destruct F as [[Ft Fl] Fr]. unfold read_0A, item_0A. rewrite firstn_len_app by assumption. rewrite text_back by assumption.
      change 24%nat with (8 * 3 + 0)%nat.
      rewrite (field_behind (text (d0A_code i)) [(8%nat, d0A_type i)] 3 0 8 (d0A_type i)) by (assumption || reflexivity).
      destruct i; reflexivity.
  - (* 0E *) eapply reads_eq; [apply r0E; reflexivity|]. rewrite (field_val _ 2 22 (d0E_bitrate d)) by (assumption || reflexivity). destruct d; reflexivity.
  - (* 40 *) eapply reads_eq; [apply r40|]. rewrite text_back by assumption. reflexivity.
  - (* 41 *) assert (F' : Forall (fun i => length (item_41 i) = 3%nat) items).
    { apply Forall_forall. intros i _. unfold item_41. rewrite layout_length; reflexivity. }
    destruct (flat_groups item_41 3 items ltac:(lia) F') as [L G]. eapply reads_eq.
    + apply r41. rewrite L. apply mult_mod. lia.
    + rewrite G. f_equal. apply map_id_on. eapply Forall_impl; [|exact F]. intros i [H1 H2]. unfold read_41, item_41.
      rewrite (field_val _ 0 16 (d41_sid i)), (field_val _ 16 8 (d41_type i)) by (assumption || reflexivity). destruct i; reflexivity.
  - (* 43 *) destruct F as (F1 & F2 & F3 & F4 & F5 & F6 & F7 & F8 & F9). destruct E as [E1 E2].
    match goal with |- reads (layout ?fs) _ _ => set (fl := fs) in * end.
    assert (L : length (layout fl) = 11%nat) by (rewrite layout_length; reflexivity).
    assert (A0 : field (layout fl) 0 32 = dec_nibs 8 (d43_freq d / 10)).
    { apply field_val; [reflexivity|reflexivity|]. apply (dec_nibs_lt 8). }
    assert (A1 : field (layout fl) 32 16 = dec_nibs 4 (d43_orbital d / 6)).
    { apply field_val; [reflexivity|reflexivity|]. apply (dec_nibs_lt 4). }
    assert (A2 : field (layout fl) 56 24 = dec_nibs 6 (d43_rate d)).
    { apply rate_back; [assumption| |rewrite L; lia]. apply field_at0; reflexivity. }
    eapply reads_eq.
    + apply r43; [assumption|rewrite A0; apply dec_nibs_ok|rewrite A1; apply dec_nibs_ok|rewrite A2; apply dec_nibs_ok].
    + rewrite A0, A1, A2, !nib_dec. change (10 ^ N.of_nat 8) with 100000000. change (10 ^ N.of_nat 4) with 10000. change (10 ^ N.of_nat 6) with (10 ^ 6).
      rewrite (N.mod_small (d43_freq d / 10)) by (apply N.div_lt_upper_bound; lia).
      rewrite (N.mod_small (d43_orbital d / 6)) by (apply N.div_lt_upper_bound; lia).
      rewrite (N.mod_small (d43_rate d)) by assumption.
      rewrite !div_back by (assumption || lia).
      rewrite (field_val fl 48 1 (d43_we d)), (field_val fl 49 2 (d43_pol d)), (field_val fl 51 2 (d43_rof d)), (field_val fl 53 1 (d43_s2 d)),
        (field_val fl 54 2 (d43_mod d)), (field_val fl 84 4 (d43_fec d)) by (assumption || reflexivity).
      destruct d; reflexivity.
  - (* 44 *) destruct F as (F1 & F2 & F3 & F4 & F5).
    match goal with |- reads (layout ?fs) _ _ => set (fl := fs) in * end.
    assert (L : length (layout fl) = 11%nat) by (rewrite layout_length; reflexivity).
    assert (A0 : field (layout fl) 0 32 = dec_nibs 8 (d44_freq d / 100)).
    { apply field_val; [reflexivity|reflexivity|]. apply (dec_nibs_lt 8). }
    assert (A2 : field (layout fl) 56 24 = dec_nibs 6 (d44_rate d)).
    { apply rate_back; [assumption| |rewrite L; lia]. apply field_at0; reflexivity. }
    assert (V : nib_value 8 (field (layout fl) 0 32) = d44_freq d / 100).
    { rewrite A0, nib_dec. apply N.mod_small. change (10 ^ N.of_nat 8) with 100000000. apply N.div_lt_upper_bound; lia. }
    eapply reads_eq.
    + apply r44; [assumption|rewrite A0; apply dec_nibs_ok|rewrite A2; apply dec_nibs_ok|].
      rewrite V, div_back by (assumption || lia). assumption.
    + rewrite V, div_back by (assumption || lia). rewrite A2, nib_dec. change (10 ^ N.of_nat 6) with (10 ^ 6).
      rewrite (N.mod_small (d44_rate d)) by assumption.
      rewrite (field_val fl 44 4 (d44_outer d)), (field_val fl 48 8 (d44_mod d)), (field_val fl 84 4 (d44_fec d)) by (assumption || reflexivity).
      destruct d; reflexivity.
  - (* 48 *) destruct F as (F1 & F2 & F3). destruct E as [E1 E2].
    assert (L1 : (length (text (d48_provider d)) < 256)%nat /\ (length (text (d48_name d)) < 256)%nat).
    { rewrite !app_length in Hl. unfold sized in Hl. cbn [length] in Hl. lia. } destruct L1 as [L1 L2].
    assert (A0 : field (layout [(8%nat, d48_type d)] ++ sized (d48_provider d) ++ sized (d48_name d)) 0 8 = d48_type d).
    { rewrite (field_at _ _ 0 8 (d48_type d)) by reflexivity. apply N.mod_small. assumption. }
    destruct (two_sized (layout [(8%nat, d48_type d)]) (d48_provider d) (d48_name d) 1) as (B1 & B2 & B3 & B4 & B5); [reflexivity|assumption|assumption|].
    eapply reads_eq; [apply r48; lia|]. rewrite A0. 
    change (2 + ?n)%nat with (S 1 + n)%nat. rewrite B2, B4, !text_back by assumption. destruct d; reflexivity.
  - (* 4D *) destruct F as ((F1 & F1') & F2 & F3). destruct E as (E1 & E2 & E3).
    assert (L1 : (length (text (d4D_name d)) < 256)%nat /\ (length (text (d4D_text d)) < 256)%nat).
    { rewrite !app_length in Hl. unfold sized in Hl. cbn [length] in Hl. lia. } destruct L1 as [L1 L2].
    destruct (two_sized (text (d4D_lang d)) (d4D_name d) (d4D_text d) 3) as (B1 & B2 & B3 & B4 & B5); [assumption|assumption|assumption|].
    eapply reads_eq; [apply r4D; lia|]. rewrite firstn_len_app by assumption.
    change (4 + ?n)%nat with (S 3 + n)%nat. rewrite B2, B4, !text_back by assumption. destruct d; reflexivity.
  - (* 4E *) destruct F as (F1 & F2 & (F3 & F3') & _ & F4). destruct E as (E1 & E2). rewrite NI in *. cbn [flat_map app] in *.
    set (h := layout [(4%nat, d4E_num d); (4%nat, d4E_last d)]) in *.
    assert (L1 : (length (text (d4E_text d)) < 256)%nat).
    { rewrite !app_length in Hl. cbn [length] in Hl. unfold sized in Hl. cbn [length] in Hl. lia. }
    set (b := h ++ text (d4E_lang d) ++ N.of_nat (length (@nil N)) :: sized (d4E_text d)) in *.
    assert (Lh : length h = 1%nat) by reflexivity.
    assert (B : b = (h ++ text (d4E_lang d)) ++ 0 :: sized (d4E_text d)) by (unfold b; rewrite app_assoc; reflexivity).
    assert (X1 : len_at b 4 = 0%nat). { unfold len_at. rewrite B, nth_len_app; [reflexivity|]. rewrite app_length. lia. }
    destruct (sized_at (h ++ text (d4E_lang d) ++ [0]) (d4E_text d) [] 5) as [X2 X3]; [rewrite !app_length; cbn [length]; lia|assumption|].
    replace ((h ++ text (d4E_lang d) ++ [0]) ++ sized (d4E_text d) ++ []) with b in X2, X3.
    2:{ rewrite app_nil_r, B, <- !app_assoc. reflexivity. }
    assert (Xl : length b = (6 + length (text (d4E_text d)))%nat).
    { rewrite B, !app_length. cbn [length]. unfold sized. cbn [length]. lia. }
    eapply reads_eq.
    + apply r4E with (items := []); rewrite ?X1; [lia|change (5 + 0)%nat with 5%nat; rewrite X2; lia|constructor].
    + rewrite X1. change (5 + 0)%nat with 5%nat. rewrite X3. unfold b. rewrite skipn_len_app by assumption. rewrite firstn_len_app by assumption.
      unfold h. rewrite (field_at _ _ 0 4 (d4E_num d)), (field_at _ _ 4 4 (d4E_last d)) by reflexivity.
      rewrite !N.mod_small by assumption. rewrite !text_back by assumption. destruct d; cbn in *; subst; reflexivity.
  - (* 52 *) eapply reads_eq; [apply r52; reflexivity|]. f_equal. 
    symmetry. apply (nth_field [t] 0); [constructor; [assumption|constructor]|cbn; lia].
  - (* 58 *) assert (F' : Forall (fun i => length (item_58 i) = 13%nat) items).
    { eapply Forall_impl; [|exact F]. intros i [H _]. apply item_58_len; assumption. }
    assert (G' : Forall (fun i => good58 (item_58 i) /\ read_58 (item_58 i) = i) items).
    { rewrite Forall_forall in *. intros i Hi. specialize (F i Hi). destruct (E i Hi) as (E1 & E2 & E3). apply item_58_back; assumption. }
    destruct (flat_groups item_58 13 items ltac:(lia) F') as [L G]. eapply reads_eq.
    + apply r58; [rewrite L; apply mult_mod; lia|]. rewrite G. apply Forall_map. eapply Forall_impl; [|exact G']. intros i [H _]. exact H.
    + rewrite G. f_equal. apply map_id_on. eapply Forall_impl; [|exact G']. intros i [_ H]. exact H.
  - (* 5A *) destruct F as (F1 & F2 & F3 & F4 & F5 & F6 & F7 & F8 & F9 & F10 & F11 & F12).
    match goal with |- reads (layout ?fs) _ _ => set (fl := fs) in * end.
    assert (L : length (layout fl) = 11%nat) by (rewrite layout_length; reflexivity).
    assert (A0 : field (layout fl) 0 32 = d5A_freq d / 10).
    { apply field_val; [reflexivity|reflexivity|]. change (2 ^ N.of_nat 32) with 4294967296. change (2 ^ 32) with 4294967296 in F1. apply N.div_lt_upper_bound; lia. }
    eapply reads_eq.
    + apply r5A; [assumption|]. rewrite A0, div_back by (assumption || lia). assumption.
    + rewrite A0, div_back by (assumption || lia).
      rewrite (field_val fl 32 3 (d5A_bw d)), (field_val fl 35 1 (d5A_prio d)), (field_val fl 36 1 (d5A_ts d)), (field_val fl 37 1 (d5A_fec d)),
       (field_val fl 40 2 (d5A_mod d)), (field_val fl 42 3 (d5A_hier d)), (field_val fl 45 3 (d5A_hp d)), (field_val fl 48 3 (d5A_lp d)),
       (field_val fl 51 2 (d5A_guard d)), (field_val fl 53 2 (d5A_trans d)), (field_val fl 55 1 (d5A_other d)) by (assumption || reflexivity).
      destruct d; reflexivity.
  - (* 83 *) assert (F' : Forall (fun i => length (item_83 i) = 4%nat) items).
    { apply Forall_forall. intros i _. unfold item_83. rewrite layout_length; reflexivity. }
    destruct (flat_groups item_83 4 items ltac:(lia) F') as [L G]. eapply reads_eq.
    + apply r83. rewrite L. apply mult_mod. lia.
    + rewrite G. f_equal. apply map_id_on. eapply Forall_impl; [|exact F]. intros i (H1 & H2 & H3). unfold read_83, item_83.
      rewrite (field_val _ 0 16 (d83_sid i)), (field_val _ 16 1 (d83_visible i)), (field_val _ 22 10 (d83_lcn i)) by (assumption || reflexivity). destruct i; reflexivity.
  - (* raw *) destruct d. apply raw_reads. assumption.
Qed.

Lemma layouts_bytes_app a b : bytes a -> bytes b -> bytes (a ++ b).
Proof. intros. apply bytes_app. split; assumption. Qed.
Lemma flat_bytes {A} (f : A -> list N) l : Forall (fun x => bytes (f x)) l -> bytes (flat_map f l).
Proof. induction 1; cbn [flat_map]; [constructor|]. apply layouts_bytes_app; assumption. Qed.
Lemma selector_bytes cp : cp < 256 -> bytes (selector cp).
Proof.
  intros H. unfold selector. repeat (destruct (_ =? _) || destruct (_ <=? _)); repeat constructor; lia.
Qed.
Lemma text_bytes t : text_ok t -> bytes (text t).
Proof.
  intros [H1 H2]. unfold text. destruct (t_data t) eqn:E; [constructor|]. apply layouts_bytes_app; [apply selector_bytes; assumption|assumption].
Qed.
Lemma sized_bytes t : text_ok t -> (length (text t) < 256)%nat -> bytes (sized t).
Proof. intros H L. unfold sized. constructor; [lia|]. apply text_bytes. assumption. Qed.
Lemma body_bytes d : desc_ok d -> bytes (body d).
Proof.
  intros (F & Hl & NI). destruct d as [d|items|d|t|items|d|d|d|d|d|t|items|d|items|d]; cbn [body fields_ok no_items] in *; try apply layout_bytes.
  - apply layouts_bytes_app; [apply layout_bytes|tauto].
  - apply flat_bytes. eapply Forall_impl; [|exact F]. intros i [[H _] _]. apply layouts_bytes_app; [apply text_bytes; assumption|apply layout_bytes].
  - apply text_bytes. assumption.
  - apply flat_bytes. apply Forall_forall. intros i _. apply layout_bytes.
  - rewrite !app_length in Hl. unfold sized in Hl. cbn [length] in Hl.
    repeat apply layouts_bytes_app; [apply layout_bytes|apply sized_bytes; [tauto|lia]|apply sized_bytes; [tauto|lia]].
  - rewrite !app_length in Hl. unfold sized in Hl. cbn [length] in Hl. destruct F as ((F & _) & F1 & F2).
    repeat apply layouts_bytes_app; [apply text_bytes; tauto|apply sized_bytes; [tauto|lia]|apply sized_bytes; [tauto|lia]].
  - rewrite NI in *. cbn [flat_map app] in *. rewrite !app_length in Hl. cbn [length] in Hl. unfold sized in Hl. cbn [length] in Hl. destruct F as (_ & _ & (F & _) & _ & F2).
    repeat apply layouts_bytes_app; [apply layout_bytes|apply text_bytes; tauto|]. constructor; [reflexivity|]. apply sized_bytes; [tauto|lia].
  - repeat constructor. assumption.
  - apply flat_bytes. eapply Forall_impl; [|exact F]. intros i [[H _] _]. apply layouts_bytes_app; [apply text_bytes; assumption|apply layout_bytes].
  - apply flat_bytes. apply Forall_forall. intros i _. apply layout_bytes.
  - tauto.
Qed.

Lemma desc_round m d b : desc_ok d -> exact d ->
  exists w, desc_assemble m d b = Ok (b ++ w) /\ desc_parse m w = Ok d.
Proof.
  intros H E. exists (tlv (desc_tag d) (body d)). split; [apply assemble_spec; assumption|].
  apply parse_reads; [apply body_bytes; assumption|apply H|apply body_reads; assumption].
Qed.

(** ** loops *)
Definition records_ok (recs : list (N * list N)) : Prop := Forall (fun r => fst r < 256 /\ bytes (snd r) /\ (length (snd r) < 256)%nat) recs.

(** the records one by one: what reading a loop returns *)
Fixpoint parse_each (m : mode) (ds : list desc) (recs : list (N * list N)) : res (list desc) :=
  match recs with
  | [] => Ok ds
  | (t, b) :: r => d <- desc_parse m (tlv t b) ;; parse_each m (ds ++ [d]) r
  end.

Lemma loop_records m recs : forall fuel pre tail ds, Forall (fun r => (length (snd r) < 256)%nat) recs -> incomplete tail ->
  (length (loop_of recs) + length tail < fuel)%nat ->
  descs_loop fuel m (pre ++ loop_of recs ++ tail) (length pre) ds = parse_each m ds recs.
Proof.
  induction recs as [|[t b] recs IH]; intros fuel pre tail ds F I Hf; (destruct fuel as [|fuel]; [lia|]).
  - cbn [loop_of flat_map app parse_each descs_loop]. rewrite app_length.
    destruct I as [I|(t & n & r & -> & I)].
    + destruct (Nat.leb_spec (length pre + 2) (length pre + length tail)); [lia|reflexivity].
    + cbn [length]. destruct (Nat.leb_spec (length pre + 2) (length pre + S (S (length r)))); [|lia].
      rewrite get_at. change (get (t :: n :: r) 1) with (Ok n). cbn [bind]. cbv zeta.
      destruct (Nat.ltb_spec (length pre + S (S (length r))) (length pre + 2 + N.to_nat n)); [reflexivity|lia].
  - inversion F as [|? ? F1 F2]; subst. cbn [fst snd] in F1. 
    change (loop_of ((t, b) :: recs)) with (tlv t b ++ loop_of recs) in *. rewrite app_length, tlv_length in Hf.
    rewrite <- app_assoc. cbn [descs_loop parse_each]. rewrite !app_length, tlv_length.
    destruct (Nat.leb_spec (length pre + 2) (length pre + (2 + length b + (length (loop_of recs) + length tail)))); [|lia].
    rewrite get_at. change (get (tlv t b ++ loop_of recs ++ tail) 1) with (Ok (N.of_nat (length b))). cbn [bind]. cbv zeta. rewrite Nat2N.id.
    destruct (Nat.ltb_spec (length pre + (2 + length b + (length (loop_of recs) + length tail))) (length pre + 2 + length b)); [lia|].
    rewrite <- Nat.add_assoc. rewrite slice_at0, slice_val by (rewrite !app_length, tlv_length; lia).
    rewrite Nat.sub_0_r. cbn [skipn]. rewrite firstn_len_app by apply tlv_length. cbn [bind].
    destruct (desc_parse m (tlv t b)) as [d| |]; cbn [bind]; [|reflexivity|reflexivity].
    rewrite app_assoc. replace (length pre + (2 + length b))%nat with (length (pre ++ tlv t b)) by (rewrite app_length, tlv_length; reflexivity).
    apply IH; [assumption|assumption|lia].
Qed.

Lemma descs_parse_records m ds recs tail : Forall (fun r => (length (snd r) < 256)%nat) recs -> incomplete tail ->
  descs_parse m ds (loop_of recs ++ tail) = parse_each m ds recs.
Proof.
  intros F I. unfold descs_parse. apply (loop_records m recs (S (length (loop_of recs ++ tail))) [] tail ds F I). rewrite app_length. lia.
Qed.

(** every byte string is a sequence of complete records and an incomplete one *)
Lemma decompose l : bytes l -> exists recs tail, l = loop_of recs ++ tail /\ incomplete tail /\ records_ok recs.
Proof.
  assert (G : forall n l, (length l <= n)%nat -> bytes l -> exists recs tail, l = loop_of recs ++ tail /\ incomplete tail /\ records_ok recs).
  2:{ intros H. eapply G; [apply Nat.le_refl|assumption]. }
  clear l. induction n as [|n IH]; intros l Hn Hb.
  { exists [], l. split; [reflexivity|]. split; [left; lia|constructor]. }
  destruct l as [|t [|k r]].
  - exists [], []. split; [reflexivity|]. split; [left; cbn; lia|constructor].
  - exists [], [t]. split; [reflexivity|]. split; [left; cbn; lia|constructor].
  - destruct (Nat.ltb_spec (length r) (N.to_nat k)) as [L|L].
    + exists [], (t :: k :: r). split; [reflexivity|]. split; [right; eauto|constructor].
    + apply bytes_cons in Hb. destruct Hb as [Ht Hb]. apply bytes_cons in Hb. destruct Hb as [Hk Hb].
      destruct (split_at (N.to_nat k) r L) as (b & r' & -> & Lb). apply bytes_app in Hb. destruct Hb as [Hb Hr].
      destruct (IH r') as (recs & tail & -> & I & R); [cbn [length] in Hn; rewrite app_length in Hn; lia|assumption|].
      exists ((t, b) :: recs), tail. split; [|split; [assumption|]].
      * change (loop_of ((t, b) :: recs)) with (tlv t b ++ loop_of recs). unfold tlv. rewrite <- !app_assoc. cbn [app].
        replace (N.of_nat (length b)) with k by lia. reflexivity.
      * constructor; [cbn [fst snd]; repeat split; [assumption|assumption|lia]|assumption].
Qed.

Lemma records_len recs : records_ok recs -> Forall (fun r => (length (snd r) < 256)%nat) recs.
Proof. apply Forall_impl. intros r H. apply H. Qed.

Lemma parse_each_ok m : forall recs ds out, Forall2 (fun r d => desc_parse m (tlv (fst r) (snd r)) = Ok d) recs out ->
  parse_each m ds recs = Ok (ds ++ out).
Proof.
  induction recs as [|[t b] recs IH]; intros ds out F; inversion F as [|? d ? out' E F']; subst; cbn [parse_each].
  - rewrite app_nil_r. reflexivity.
  - cbn [fst snd] in E. rewrite E. cbn [bind]. rewrite (IH (ds ++ [d]) out' F'). rewrite <- app_assoc. reflexivity.
Qed.
Lemma parse_each_inv m : forall recs ds out, parse_each m ds recs = Ok out ->
  exists o, out = ds ++ o /\ Forall2 (fun r d => desc_parse m (tlv (fst r) (snd r)) = Ok d) recs o.
Proof.
  induction recs as [|[t b] recs IH]; intros ds out E; cbn [parse_each] in E.
  - injection E as <-. exists []. rewrite app_nil_r. auto.
  - destruct (desc_parse m (tlv t b)) as [d| |] eqn:P; try discriminate. cbn [bind] in E.
    apply IH in E. destruct E as (o & -> & F). exists (d :: o). rewrite <- app_assoc. split; [reflexivity|]. constructor; assumption.
Qed.
Lemma parse_each_panic m : forall recs ds, records_ok recs ->
  (exists t b, In (t, b) recs /\ desc_parse m (tlv t b) = Panic) -> parse_each m ds recs = Panic.
Proof.
  induction recs as [|[t b] recs IH]; intros ds R (t' & b' & I & P); [destruct I|]. inversion R as [|? ? (R1 & R2 & R3) R']; subst.
  cbn [fst snd] in *. cbn [parse_each]. destruct I as [I|I].
  - injection I as -> ->. rewrite P. reflexivity.
  - destruct (desc_parse m (tlv t b)) eqn:E; cbn [bind]; [|reflexivity|].
    + apply IH; [assumption|]. eauto.
    + exfalso. destruct (parse_outcome m t b R2 R3) as [(d & _ & Q)|(N & O1 & O2)]; [congruence|].
      destruct (oob_dec t b R2) as [O|O]; [rewrite (O1 O) in E; discriminate|]. specialize (O2 O).
      destruct m; [congruence|]. destruct O2; congruence.
Qed.

Lemma descs_bytes_ok m : forall ds b, Forall desc_ok ds ->
  descs_bytes m ds b = Ok (b ++ loop_of (map (fun d => (desc_tag d, body d)) ds)).
Proof.
  induction ds as [|d ds IH]; intros b F; cbn [descs_bytes map].
  - cbn. rewrite app_nil_r. reflexivity.
  - inversion F; subst. rewrite assemble_spec by assumption. cbn [bind]. rewrite IH by assumption. rewrite <- app_assoc. reflexivity.
Qed.

Lemma descs_assemble_ok m ds b : Forall desc_ok ds ->
  descs_assemble m ds b = Ok (b ++ loop_of (map (fun d => (desc_tag d, body d)) ds),
                              length (loop_of (map (fun d => (desc_tag d, body d)) ds))).
Proof.
  intros F. unfold descs_assemble. rewrite descs_bytes_ok by assumption. cbn [bind]. rewrite app_length.
  do 2 f_equal. lia.
Qed.

Lemma fold_size : forall ds a, fold_left (fun acc d => acc + desc_size d)%nat ds a = (a + fold_right (fun d s => desc_size d + s) 0 ds)%nat.
Proof. induction ds as [|d ds IH]; intros a; cbn [fold_left fold_right]; [lia|]. rewrite IH. lia. Qed.
Lemma descs_size_ok ds : Forall desc_ok ds -> descs_size ds = length (loop_of (map (fun d => (desc_tag d, body d)) ds)).
Proof.
  intros F. unfold descs_size. rewrite fold_size. cbn [Nat.add]. induction F as [|d ds (F1 & F2 & F3) F IH]; [reflexivity|].
  cbn [fold_right map]. change (loop_of ((desc_tag d, body d) :: ?r)) with (tlv (desc_tag d) (body d) ++ loop_of r).
  rewrite app_length, tlv_length, <- IH, size_body by assumption. reflexivity.
Qed.

Lemma descs_round m ds old : Forall desc_ok ds -> Forall exact ds ->
  descs_parse m old (loop_of (map (fun d => (desc_tag d, body d)) ds)) = Ok (old ++ ds).
Proof.
  intros F E. rewrite <- (app_nil_r (loop_of _)). rewrite descs_parse_records.
  - apply parse_each_ok. clear old. induction ds as [|d ds IH]; [constructor|]. inversion F; inversion E; subst.
    cbn [map]. constructor; [|apply IH; assumption]. cbn [fst snd].
    apply parse_reads; [apply body_bytes; assumption|apply H1|apply body_reads; assumption].
  - apply Forall_map. eapply Forall_impl; [|exact F]. intros d (_ & H & _). exact H.
  - left. cbn. lia.
Qed.

(** ** clones *)
Definition raw_known (d : desc) : Prop := match d with DRaw r => In (raw_tag r) supported | _ => False end.
Lemma clone_ok d : ~ raw_known d -> desc_clone d = Ok d.
Proof.
  intros H. destruct d as [d|items|d|t|items|d|d|d|d|d|t|items|d|items|d]; try reflexivity.
  unfold desc_clone. cbn [desc_tag]. cbn [raw_known] in H. destruct d as [t b]. cbn [raw_tag] in *.
  destruct t as [|p]; [reflexivity|].
  do 8 (try (destruct p as [p|p|]; try reflexivity)); exfalso; apply H; cbn; tauto.
Qed.
Lemma clone_panic d : raw_known d -> desc_clone d = Panic.
Proof.
  intros H. destruct d as [d|items|d|t|items|d|d|d|d|d|t|items|d|items|d]; try contradiction. cbn [raw_known] in H.
  destruct d as [t b]. cbn [raw_tag supported In] in H. repeat destruct H as [<-|H]; try reflexivity. contradiction.
Qed.
Lemma descs_clone_ok ds : Forall (fun d => ~ raw_known d) ds -> descs_clone ds = Ok ds.
Proof. induction 1 as [|d ds H F IH]; [reflexivity|]. cbn [descs_clone]. rewrite clone_ok, IH by assumption. reflexivity. Qed.
