(** Proofs about assembling descriptors (M_desc against the tables of S_desc). *)
From Verif Require Import Prelude Layout Facts Facts2 S_utils S_text M_bytes M_utils M_text M_desc S_desc P_bytes P_utils P_text2.

Lemma set_at {A} (b t : list A) k v :
  set (b ++ t) (length b + k) v = (t' <- set t k v ;; Ok (b ++ t')).
Proof.
  unfold set. rewrite app_length.
  destruct (Nat.ltb_spec (length b + k) (length b + length t)), (Nat.ltb_spec k (length t)); try lia; cbn [bind]; [|reflexivity].
  f_equal. rewrite firstn_app_2, <- app_assoc. f_equal. f_equal.
  rewrite skipn_app, skipn_all2 by lia. cbn [app]. f_equal. f_equal. lia.
Qed.

Lemma on_from_at {A} (b t : list A) k f :
  on_from (b ++ t) (length b + k) f = (t' <- on_from t k f ;; Ok (b ++ t')).
Proof.
  unfold on_from, slice_from. rewrite app_length.
  destruct (Nat.leb_spec (length b + k) (length b + length t)), (Nat.leb_spec k (length t)); try lia; cbn [bind]; [|reflexivity].
  rewrite skipn_app, skipn_all2 by lia. cbn [app]. replace (length b + k - length b)%nat with k by lia.
  destruct (f (skipn k t)); cbn [bind]; try reflexivity. rewrite firstn_app_2, <- app_assoc. reflexivity.
Qed.

Lemma set_u16_at_app b t k v : set_u16_at (b ++ t) (length b + k) v = (t' <- set_u16_at t k v ;; Ok (b ++ t')).
Proof. apply on_from_at. Qed.
Lemma set_u24_at_app b t k v : set_u24_at (b ++ t) (length b + k) v = (t' <- set_u24_at t k v ;; Ok (b ++ t')).
Proof. apply on_from_at. Qed.
Lemma set_u32_at_app b t k v : set_u32_at (b ++ t) (length b + k) v = (t' <- set_u32_at t k v ;; Ok (b ++ t')).
Proof. apply on_from_at. Qed.
Lemma set_u16_at_app0 b t v : set_u16_at (b ++ t) (length b) v = (t' <- set_u16_at t 0 v ;; Ok (b ++ t')).
Proof. rewrite <- (set_u16_at_app b t 0 v), Nat.add_0_r. reflexivity. Qed.
Lemma set_u32_at_app0 b t v : set_u32_at (b ++ t) (length b) v = (t' <- set_u32_at t 0 v ;; Ok (b ++ t')).
Proof. rewrite <- (set_u32_at_app b t 0 v), Nat.add_0_r. reflexivity. Qed.

Lemma resize_app (b : list N) n : resize b (length b + n) 0 = b ++ repeat 0 n.
Proof. rewrite resize_grow by lia. do 2 f_equal. lia. Qed.

Lemma layout_length fs : (total_width fs mod 8 = 0)%nat -> length (layout fs) = (total_width fs / 8)%nat.
Proof.
  intros H. pose proof (unpack_layout fs H) as E. apply (f_equal (@length bool)) in E.
  rewrite unpack_length, field_bits_length in E. rewrite <- E.
  rewrite Nat.mul_comm, Nat.div_mul by lia. reflexivity.
Qed.

Lemma flat_map_len {A} (f : A -> list N) l k : Forall (fun x => length (f x) = k) l ->
  length (flat_map f l) = (length l * k)%nat.
Proof. induction 1 as [|x l Hx _ IH]; [reflexivity|]. cbn [flat_map length]. rewrite app_length, Hx, IH. reflexivity. Qed.

Lemma text_size t : dvb_size t = length (text t).
Proof. apply dvb_size_spec. Qed.

(** size() is right for every well-formed descriptor without extended event items *)
Lemma size_body d : fields_ok d -> no_items d -> desc_size d = (2 + length (body d))%nat.
Proof.
  destruct d; cbn [fields_ok no_items desc_size body]; intros H Hn; rewrite ?app_length, ?layout_length by reflexivity;
    cbn [total_width fold_right fst snd Nat.add length]; rewrite ?text_size; try reflexivity.
  - f_equal. f_equal. symmetry. apply flat_map_len. eapply Forall_impl; [|exact H]. intros i [[_ E] _].
    unfold item_0A. rewrite app_length, E, layout_length by reflexivity. reflexivity.
  - f_equal. f_equal. symmetry. apply flat_map_len. eapply Forall_impl; [|exact H]. intros i _.
    unfold item_41. rewrite layout_length by reflexivity. reflexivity.
  - unfold sized. cbn [length]. change (8 / 8)%nat with 1%nat. lia.
  - destruct H as ((_ & E) & _). unfold sized. cbn [length]. rewrite E. lia.
  - destruct H as (_ & _ & (_ & E) & _). rewrite Hn. cbn [flat_map size_4E_items length]. unfold sized. cbn [length].
    rewrite E. change (8 / 8)%nat with 1%nat. lia.
  - f_equal. f_equal. symmetry. apply flat_map_len. eapply Forall_impl; [|exact H]. intros i ((_ & E) & _).
    unfold item_58. rewrite app_length, E, layout_length by reflexivity. reflexivity.
  - f_equal. f_equal. symmetry. apply flat_map_len. eapply Forall_impl; [|exact H]. intros i _.
    unfold item_83. rewrite layout_length by reflexivity. reflexivity.
Qed.

Lemma len_byte_ok d : desc_ok d -> len_byte (desc_size d) = N.of_nat (length (body d)).
Proof.
  intros (H & Hl & Hn). rewrite size_body by assumption. unfold len_byte, cast, U8.
  rewrite N.mod_small by lia. f_equal. lia.
Qed.

(** run the writes on a literal tail *)
Ltac run_write e :=
  let r := eval cbv [set_u16_at set_u24_at set_u32_at set_u16 set_u24 set_u32 on_from slice_from set bind
                     length Nat.ltb Nat.leb firstn skipn app repeat] in e in
  change e with r; cbn [bind].
Ltac writes :=
  repeat (first [ rewrite set_app_r | rewrite set_at | rewrite set_u16_at_app | rewrite set_u24_at_app | rewrite set_u32_at_app
                | rewrite set_u16_at_app0 | rewrite set_u32_at_app0 ];
          lazymatch goal with
          | |- bind (bind ?e _) _ = _ => run_write e
          | |- bind ?e _ = _ => run_write e
          end).
Ltac lay := unfold layout; cbn [field_bits flat_map fst snd bits_of app pack_bits]; fold_nat_lits.
Ltac lt8 := first
  [ apply N_of_bits_lt
  | apply (lor_lt 8); lt8
  | unfold cast, U8, shlw; change (2 ^ N.of_nat 8) with 256; apply N.mod_lt; discriminate
  | change (2 ^ N.of_nat 8) with 256; change (2 ^ 8) with 256 in *; lia
  | reflexivity ].
Ltac byte_is :=
  blast_pre 8%nat; [ lt8 | lt8 | .. ];
  unfold cast, U8, U16, shlw; change (2 ^ 22) with 4194304 in *; change (2 ^ 13) with 8192 in *; change (2 ^ 16) with 65536 in *;
  change (2 ^ 4) with 16 in *; change (2 ^ 6) with 64 in *; change (2 ^ 8) with 256 in *; change (2 ^ 10) with 1024 in *;
  try bool_cases.
Ltac bytes_are :=
  repeat match goal with
  | |- Ok _ = Ok _ => apply f_equal
  | |- ?b ++ _ = ?b ++ _ => apply f_equal
  | |- _ :: _ = _ :: _ => apply f_equal2; [first [reflexivity | byte_is]|]
  end; try reflexivity.

Lemma x09_spec d b : desc_ok (D09 d) -> x09_assemble d b = Ok (b ++ tlv 0x09 (body (D09 d))).
Proof.
  intros Hd. unfold x09_assemble. rewrite resize_app. rewrite len_byte_ok by assumption. destruct Hd as ((H1 & H2 & H3) & _).
  unfold tlv. generalize (N.of_nat (length (body (D09 d)))) as n. intros n.
  writes. cbn [body]. rewrite <- app_assoc. lay. cbn [app]. bytes_are.
Qed.

Lemma x0E_spec d b : desc_ok (D0E d) -> x0E_assemble d b = Ok (b ++ tlv 0x0E (body (D0E d))).
Proof.
  intros Hd. unfold x0E_assemble. rewrite len_byte_ok by assumption. cbn [desc_size]. rewrite resize_app. destruct Hd as (H & _).
  cbn [fields_ok] in H.
  unfold tlv. generalize (N.of_nat (length (body (D0E d)))) as n. intros n.
  writes. cbn [body]. lay. bytes_are.
Qed.

Lemma dec_nibs_6 r : r < 10 ^ 6 -> dec_nibs 8 r = dec_nibs 6 r.
Proof.
  intros H. rewrite (dec_nibs_app 2 6). change (10 ^ N.of_nat 6) with (10 ^ 6). rewrite N.div_small by assumption.
  change (dec_nibs 2 0) with 0. lia.
Qed.
Lemma rate7_eq r : rate7 r = dec_nibs 6 r * 16.
Proof.
  unfold rate7. cbn [dec_nibs]. rewrite (N.mul_comm 10 r), N.div_mul, N.mod_mul by lia. lia.
Qed.

Lemma x43_spec m d b : desc_ok (D43 d) -> x43_assemble m d b = Ok (b ++ tlv 0x43 (body (D43 d))).
Proof.
  intros Hd. unfold x43_assemble. rewrite len_byte_ok by assumption. cbn [desc_size]. rewrite resize_app. destruct Hd as (H & _).
  cbn [fields_ok] in H. destruct H as (H1 & H2 & H3 & H4 & H5 & H6 & H7 & H8 & H9).
  unfold tlv. generalize (N.of_nat (length (body (D43 d)))) as n. intros n.
  rewrite (u32_to_bcd_ok m (d43_freq d / 10)) by dlia.
  rewrite (u16_to_bcd_ok m (d43_orbital d / 6)) by dlia.
  rewrite (u32_to_bcd_ok m (d43_rate d)) by lia. rewrite (dec_nibs_6 (d43_rate d)) by assumption.
  cbn [bind]. writes. cbn [body]. rewrite rate7_eq.
  generalize (dec_nibs 8 (d43_freq d / 10)) (dec_nibs 4 (d43_orbital d / 6)) (dec_nibs 6 (d43_rate d)). intros f o r.
  lay. bytes_are.
Qed.

Lemma x44_spec m d b : desc_ok (D44 d) -> x44_assemble m d b = Ok (b ++ tlv 0x44 (body (D44 d))).
Proof.
  intros Hd. unfold x44_assemble. rewrite len_byte_ok by assumption. cbn [desc_size]. rewrite resize_app. destruct Hd as (H & _).
  cbn [fields_ok] in H. destruct H as (H1 & H2 & H3 & H4 & H5).
  unfold tlv. generalize (N.of_nat (length (body (D44 d)))) as n. intros n.
  rewrite (u32_to_bcd_ok m (d44_freq d / 100)) by dlia.
  rewrite (u32_to_bcd_ok m (d44_rate d)) by lia. rewrite (dec_nibs_6 (d44_rate d)) by assumption.
  cbn [bind]. writes. cbn [body]. rewrite rate7_eq.
  generalize (dec_nibs 8 (d44_freq d / 100)) (dec_nibs 6 (d44_rate d)). intros f r.
  lay. bytes_are.
Qed.

Lemma x5A_spec d b : desc_ok (D5A d) -> x5A_assemble d b = Ok (b ++ tlv 0x5A (body (D5A d))).
Proof.
  intros Hd. unfold x5A_assemble. change (len_byte 13) with (len_byte (desc_size (D5A d))).
  rewrite len_byte_ok by assumption. rewrite resize_app. destruct Hd as (H & _).
  cbn [fields_ok] in H. destruct H as (H1 & H2 & H3 & H4 & H5 & H6 & H7 & H8 & H9 & H10 & H11 & H12).
  unfold tlv. generalize (N.of_nat (length (body (D5A d)))) as n. intros n.
  writes. cbn [body]. rewrite <- !app_assoc. cbn [app].
  lay. bytes_are.
Qed.

Lemma assemble_text m t b : t_cp t < 256 -> dvb_assemble m t b = Ok (b ++ text t).
Proof. apply dvb_assemble_spec. Qed.
Lemma assemble_sized m t b : t_cp t < 256 -> (length (text t) < 256)%nat -> dvb_assemble_sized m t b = Ok (b ++ sized t).
Proof.
  intros H Hl. rewrite dvb_assemble_sized_spec by assumption. rewrite text_size. unfold sized.
  rewrite N.mod_small by lia. reflexivity.
Qed.

Lemma x41_items_spec items : forall pre, Forall (fun i => d41_sid i < 2 ^ 16 /\ d41_type i < 2 ^ 8) items ->
  x41_items items (pre ++ repeat 0 (length items * 3)) (length pre) = Ok (pre ++ flat_map item_41 items).
Proof.
  induction items as [|i r IH]; intros pre H; [reflexivity|]. inversion H as [|? ? [H1 H2] Hr]; subst.
  cbn [x41_items length Nat.mul Nat.add repeat flat_map].
  remember (repeat 0 (length r * 3)) as R eqn:ER. writes.
  replace (pre ++ _ :: _ :: _ :: R) with ((pre ++ item_41 i) ++ R).
  2:{ rewrite <- app_assoc. unfold item_41. lay. cbn [app]. bytes_are. }
  replace (length pre + 3)%nat with (length (pre ++ item_41 i)).
  2:{ rewrite app_length. reflexivity. }
  subst R. rewrite IH by assumption. rewrite <- app_assoc. reflexivity.
Qed.

Lemma x41_spec items b : desc_ok (D41 items) -> x41_assemble items b = Ok (b ++ tlv 0x41 (body (D41 items))).
Proof.
  intros Hd. unfold x41_assemble. rewrite len_byte_ok by assumption. rewrite resize_app. destruct Hd as (H & _).
  unfold tlv. generalize (N.of_nat (length (body (D41 items)))) as n. intros n.
  cbn [desc_size Nat.add repeat].
  remember (repeat 0 (length items * 3)) as R eqn:ER. writes.
  replace (b ++ _ :: n :: R) with ((b ++ [0x41; n]) ++ R) by (rewrite <- app_assoc; reflexivity).
  replace (length b + 2)%nat with (length (b ++ [0x41; n])) by (rewrite app_length; reflexivity).
  subst R. rewrite x41_items_spec by assumption. rewrite <- app_assoc. reflexivity.
Qed.

Lemma x83_items_spec items : forall pre, Forall (fun i => d83_sid i < 2 ^ 16 /\ d83_visible i < 2 /\ d83_lcn i < 2 ^ 10) items ->
  x83_items items (pre ++ repeat 0 (length items * 4)) (length pre) = Ok (pre ++ flat_map item_83 items).
Proof.
  induction items as [|i r IH]; intros pre H; [reflexivity|]. inversion H as [|? ? (H1 & H2 & H3) Hr]; subst.
  cbn [x83_items length Nat.mul Nat.add repeat flat_map].
  remember (repeat 0 (length r * 4)) as R eqn:ER. writes.
  replace (pre ++ _ :: _ :: _ :: _ :: R) with ((pre ++ item_83 i) ++ R).
  2:{ rewrite <- app_assoc. unfold item_83. lay. cbn [app]. bytes_are. }
  replace (length pre + 4)%nat with (length (pre ++ item_83 i)).
  2:{ rewrite app_length. reflexivity. }
  subst R. rewrite IH by assumption. rewrite <- app_assoc. reflexivity.
Qed.

Lemma x83_spec items b : desc_ok (D83 items) -> x83_assemble items b = Ok (b ++ tlv 0x83 (body (D83 items))).
Proof.
  intros Hd. unfold x83_assemble. rewrite len_byte_ok by assumption. rewrite resize_app. destruct Hd as (H & _).
  unfold tlv. generalize (N.of_nat (length (body (D83 items)))) as n. intros n.
  cbn [desc_size Nat.add repeat].
  remember (repeat 0 (length items * 4)) as R eqn:ER. writes.
  replace (b ++ _ :: n :: R) with ((b ++ [0x83; n]) ++ R) by (rewrite <- app_assoc; reflexivity).
  replace (length b + 2)%nat with (length (b ++ [0x83; n])) by (rewrite app_length; reflexivity).
  subst R. rewrite x83_items_spec by assumption. rewrite <- app_assoc. reflexivity.
Qed.

Lemma x0A_items_spec m items : forall b, Forall (fun i => code_ok (d0A_code i) /\ d0A_type i < 2 ^ 8) items ->
  x0A_items m items b = Ok (b ++ flat_map item_0A items).
Proof.
  induction items as [|i r IH]; intros b H; [cbn; rewrite app_nil_r; reflexivity|].
  inversion H as [|? ? [((Hc & Hb) & Hl) Ht] Hr]; subst. cbn [x0A_items flat_map].
  rewrite assemble_text by assumption. cbn [bind]. rewrite IH by assumption. rewrite <- !app_assoc. unfold item_0A.
  rewrite <- app_assoc. do 3 f_equal. unfold layout. lay. bytes_are.
Qed.

Lemma x0A_spec m items b : desc_ok (D0A items) -> x0A_assemble m items b = Ok (b ++ tlv 0x0A (body (D0A items))).
Proof.
  intros Hd. unfold x0A_assemble. rewrite len_byte_ok by assumption. destruct Hd as (H & _).
  rewrite x0A_items_spec by assumption. rewrite <- !app_assoc. reflexivity.
Qed.

Lemma x40_spec m t b : desc_ok (D40 t) -> x40_assemble m t b = Ok (b ++ tlv 0x40 (body (D40 t))).
Proof.
  intros ((H & _) & Hl & _). unfold x40_assemble. cbn [body] in *. rewrite assemble_sized by assumption.
  rewrite <- app_assoc. reflexivity.
Qed.

Lemma x48_spec m d b : desc_ok (D48 d) -> x48_assemble m d b = Ok (b ++ tlv 0x48 (body (D48 d))).
Proof.
  intros Hd. unfold x48_assemble. rewrite len_byte_ok by assumption. destruct Hd as ((H1 & (H2 & _) & (H3 & _)) & Hl & _).
  unfold tlv. cbn [body] in *. rewrite !app_length in Hl. unfold sized in Hl at 1 2. cbn [length] in Hl.
  rewrite !assemble_sized by (assumption || lia). cbn [bind].
  rewrite assemble_sized by (assumption || lia). rewrite <- !app_assoc. cbn [app]. do 5 f_equal.
  lay. bytes_are.
Qed.

Lemma x4D_spec m d b : desc_ok (D4D d) -> x4D_assemble m d b = Ok (b ++ tlv 0x4D (body (D4D d))).
Proof.
  intros Hd. unfold x4D_assemble. rewrite len_byte_ok by assumption.
  destruct Hd as ((((H1 & _) & _) & (H2 & _) & (H3 & _)) & Hl & _).
  unfold tlv. cbn [body] in *. rewrite !app_length in Hl. unfold sized in Hl at 1 2. cbn [length] in Hl.
  rewrite assemble_text by assumption. cbn [bind].
  rewrite assemble_sized by (assumption || lia). cbn [bind].
  rewrite assemble_sized by (assumption || lia). rewrite <- !app_assoc. reflexivity.
Qed.

Lemma x52_spec t b : desc_ok (D52 t) -> x52_assemble t b = b ++ tlv 0x52 (body (D52 t)).
Proof. intros _. unfold x52_assemble. rewrite <- !app_assoc. reflexivity. Qed.

Lemma raw_spec d b : desc_ok (DRaw d) -> raw_assemble d b = b ++ tlv (raw_tag d) (body (DRaw d)).
Proof.
  intros (_ & Hl & _). cbn [body] in *. unfold raw_assemble, tlv. destruct (Nat.ltb_spec 255 (length (raw_data d))); [lia|].
  unfold cast, U8. rewrite N.mod_small by lia. reflexivity.
Qed.

Lemma x4E_items_spec m items : forall b, Forall (fun i => text_ok (fst i) /\ text_ok (snd i)) items ->
  Forall (fun i => (length (text (fst i)) < 256)%nat /\ (length (text (snd i)) < 256)%nat) items ->
  x4E_items m items b = Ok (b ++ flat_map item_4E items).
Proof.
  induction items as [|[x y] r IH]; intros b H Hl; [cbn; rewrite app_nil_r; reflexivity|].
  inversion H as [|? ? [[H1 _] [H2 _]] Hr]; subst. inversion Hl as [|? ? [L1 L2] Lr]; subst. cbn [fst snd] in *.
  cbn [x4E_items flat_map]. rewrite assemble_sized by assumption. cbn [bind]. rewrite assemble_sized by assumption. cbn [bind].
  rewrite IH by assumption. unfold item_4E at 2. cbn [fst snd]. rewrite <- !app_assoc. reflexivity.
Qed.

(** the bytes written for any extended event descriptor whose size() fits: the length byte is
    the one of size(), which does not count two bytes per item *)
Lemma x4E_written m d b : fields_ok (D4E d) -> (desc_size (D4E d) - 2 < 256)%nat ->
  x4E_assemble m d b = Ok (b ++ 0x4E :: N.of_nat (desc_size (D4E d) - 2) ::
    layout [(4%nat, d4E_num d); (4%nat, d4E_last d)] ++ text (d4E_lang d) ++
    [N.of_nat (length (flat_map item_4E (d4E_items d))) mod 256] ++ flat_map item_4E (d4E_items d) ++ sized (d4E_text d)).
Proof.
  intros (H1 & H2 & ((H3 & _) & _) & H4 & (H5 & _)) Hl. unfold x4E_assemble.
  destruct (Nat.ltb_spec 255 (desc_size (D4E d) - 2)); [lia|].
  remember (desc_size (D4E d) - 2)%nat as sz eqn:Esz. cbn [desc_size] in Esz.
  unfold cast at 1, U8 at 1. rewrite N.mod_small by lia.
  rewrite assemble_text by assumption. cbn [bind].
  assert (L : Forall (fun i => (length (text (fst i)) < 256)%nat /\ (length (text (snd i)) < 256)%nat) (d4E_items d)).
  { assert (G : (size_4E_items (d4E_items d) < 256)%nat) by lia. clear Esz H4. induction (d4E_items d) as [|[x y] r IH]; [constructor|].
    cbn [size_4E_items] in G. rewrite !text_size in G. constructor; [cbn [fst snd]; lia|]. apply IH. lia. }
  rewrite x4E_items_spec by assumption. cbn [bind].
  set (pre := (((b ++ [0x4E]) ++ _) ++ _) ++ text (d4E_lang d)).
  unfold sub_idx. rewrite !app_length. cbn [length].
  destruct (Nat.leb_spec (length pre) (length pre + 1 + length (flat_map item_4E (d4E_items d)))); [|lia]. cbn [bind].
  destruct (Nat.leb_spec 1 (length pre + 1 + length (flat_map item_4E (d4E_items d)) - length pre)); [|lia]. cbn [bind].
  rewrite <- app_assoc. cbn [app]. rewrite set_app_r. cbn [set length Nat.ltb Nat.leb firstn skipn app bind].
  rewrite assemble_sized by (try assumption; rewrite text_size in Esz; lia).
  unfold pre. rewrite <- !app_assoc. cbn [app]. do 4 f_equal. unfold layout at 1. lay.
  apply f_equal2; [byte_is|]. f_equal. f_equal. unfold cast, U8. f_equal. lia.
Qed.

Lemma x4E_spec m d b : desc_ok (D4E d) -> x4E_assemble m d b = Ok (b ++ tlv 0x4E (body (D4E d))).
Proof.
  intros Hd. pose proof Hd as (H & Hl & Hn). pose proof (size_body _ H Hn) as E. rewrite x4E_written by (assumption || lia).
  unfold tlv. rewrite E. cbn [no_items] in Hn. cbn [body]. rewrite Hn. cbn [flat_map length].
  change (N.of_nat 0 mod 256) with (N.of_nat 0). do 5 f_equal.
Qed.

Lemma x58_items_spec m items : forall b, Forall ok_58i items -> x58_items m items b = Ok (b ++ flat_map item_58 items).
Proof.
  induction items as [|i r IH]; intros b H; [cbn; rewrite app_nil_r; reflexivity|].
  inversion H as [|? ? (((Hc & Hb) & Hl) & H1 & H2 & H3 & H4 & H5) Hr]; subst. cbn [x58_items flat_map].
  rewrite assemble_text by assumption. cbn [bind]. rewrite resize_app.
  unfold MJD_END in H4.
  rewrite u16_to_bcd_time_spec by lia. rewrite (N.mod_small (d58_offset i / 60)) by dlia. cbn [bind].
  rewrite to_mjd_spec by (unfold U64; lia). rewrite (N.mod_small (d58_time i / 86400 + 40587)) by dlia. cbn [bind].
  unfold cast at 1, U32. rewrite u32_to_bcd_time_spec by (apply N.mod_lt; discriminate).
  rewrite (N.mod_small (d58_time i)) by lia. cbn [bind].
  rewrite u16_to_bcd_time_spec by lia. rewrite (N.mod_small (d58_next i / 60)) by dlia. cbn [bind].
  set (pre := b ++ text (d58_code i)). cbn [repeat]. writes. rewrite IH by assumption. unfold pre. rewrite <- !app_assoc.
  do 2 f_equal. unfold item_58. rewrite <- app_assoc. f_equal.
  rewrite (N.add_comm MJD_EPOCH). unfold MJD_EPOCH.
  generalize (hm (d58_offset i / 60) (d58_offset i mod 60)) (hm (d58_next i / 60) (d58_next i mod 60))
    (d58_time i / 86400 + 40587) (hms (d58_time i / 3600 mod 24) (d58_time i / 60 mod 60) (d58_time i mod 60)).
  intros o n d t. lay. cbn [app]. bytes_are.
Qed.

Lemma x58_spec m items b : desc_ok (D58 items) -> x58_assemble m items b = Ok (b ++ tlv 0x58 (body (D58 items))).
Proof.
  intros Hd. unfold x58_assemble. rewrite len_byte_ok by assumption. destruct Hd as (H & _).
  rewrite x58_items_spec by assumption. rewrite <- !app_assoc. reflexivity.
Qed.

Lemma assemble_spec m d b : desc_ok d -> desc_assemble m d b = Ok (b ++ tlv (desc_tag d) (body d)).
Proof.
  intros H. destruct d; cbn [desc_assemble desc_tag].
  - apply x09_spec; assumption.
  - apply x0A_spec; assumption.
  - apply x0E_spec; assumption.
  - apply x40_spec; assumption.
  - apply x41_spec; assumption.
  - apply x43_spec; assumption.
  - apply x44_spec; assumption.
  - apply x48_spec; assumption.
  - apply x4D_spec; assumption.
  - apply x4E_spec; assumption.
  - rewrite x52_spec by assumption. reflexivity.
  - apply x58_spec; assumption.
  - apply x5A_spec; assumption.
  - apply x83_spec; assumption.
  - rewrite raw_spec by assumption. reflexivity.
Qed.
