(** Proofs about the byte accessors (M_bytes). *)
From Verif Require Import Prelude Layout Facts M_bytes.

Ltac destruct_bytes :=
  repeat match goal with
  | H : bytes (_ :: _) |- _ => apply bytes_cons in H; destruct H
  end.

Lemma lor2 b0 b1 : b0 < 256 -> b1 < 256 -> N.lor (shlw U16 b0 8) b1 = b0 * 256 + b1.
Proof.
  intros H0 H1. unfold U16. rewrite shlw_small by (change (2 ^ 8) with 256; lia).
  apply (lor_add 8); [|assumption]. change (2 ^ 8) with 256. apply N.mod_mul. lia.
Qed.

Lemma lor3 b0 b1 b2 : b0 < 256 -> b1 < 256 -> b2 < 256 ->
  N.lor (N.lor (shlw U32 b0 16) (shlw U32 b1 8)) b2 = b0 * 65536 + b1 * 256 + b2.
Proof.
  intros H0 H1 H2. unfold U32.
  rewrite !shlw_small by (change (2 ^ 8) with 256; change (2 ^ 16) with 65536; lia).
  change (2 ^ 8) with 256; change (2 ^ 16) with 65536.
  rewrite (lor_add 16 (b0 * _)) by (change (2 ^ 16) with 65536; dlia).
  apply (lor_add 8); change (2 ^ 8) with 256; dlia.
Qed.

Lemma lor4 b0 b1 b2 b3 : b0 < 256 -> b1 < 256 -> b2 < 256 -> b3 < 256 ->
  N.lor (N.lor (N.lor (shlw U32 b0 24) (shlw U32 b1 16)) (shlw U32 b2 8)) b3
  = b0 * 16777216 + b1 * 65536 + b2 * 256 + b3.
Proof.
  intros H0 H1 H2 H3. unfold U32.
  rewrite !shlw_small by (change (2 ^ 8) with 256; change (2 ^ 16) with 65536; change (2 ^ 24) with 16777216; lia).
  change (2 ^ 8) with 256; change (2 ^ 16) with 65536; change (2 ^ 24) with 16777216.
  rewrite (lor_add 24 (b0 * _)) by (change (2 ^ 24) with 16777216; dlia).
  rewrite (lor_add 16 (b0 * _ + _)) by (change (2 ^ 16) with 65536; dlia).
  apply (lor_add 8); change (2 ^ 8) with 256; dlia.
Qed.

Lemma get_u16_spec l : bytes l ->
  get_u16 l = if (2 <=? length l)%nat then Ok (be (firstn 2 l)) else Panic.
Proof.
  intros H. destruct l as [|b0 [|b1 l]]; [reflexivity|reflexivity|].
  destruct_bytes. unfold get_u16. cbn. rewrite lor2 by assumption. f_equal. lia.
Qed.

Lemma get_u24_spec l : bytes l ->
  get_u24 l = if (3 <=? length l)%nat then Ok (be (firstn 3 l)) else Panic.
Proof.
  intros H. destruct l as [|b0 [|b1 [|b2 l]]]; [reflexivity|reflexivity|reflexivity|].
  destruct_bytes. unfold get_u24. cbn. rewrite lor3 by assumption. f_equal. lia.
Qed.

Lemma get_u32_spec l : bytes l ->
  get_u32 l = if (4 <=? length l)%nat then Ok (be (firstn 4 l)) else Panic.
Proof.
  intros H. destruct l as [|b0 [|b1 [|b2 [|b3 l]]]]; [reflexivity|reflexivity|reflexivity|reflexivity|].
  destruct_bytes. unfold get_u32. cbn. rewrite lor4 by assumption. f_equal. lia.
Qed.

Lemma shr_byte v k : cast U8 (N.shiftr v k) = v / 2 ^ k mod 256.
Proof. unfold cast, U8. rewrite N.shiftr_div_pow2. reflexivity. Qed.

Lemma set_u16_spec l v :
  set_u16 l v = if (2 <=? length l)%nat then Ok (to_be 2 v ++ skipn 2 l) else Panic.
Proof.
  destruct l as [|b0 [|b1 l]]; [reflexivity|reflexivity|].
  unfold set_u16. rewrite !shr_byte. cbn. unfold cast, U8.
  change (2 ^ 8) with 256. change (256 ^ N.of_nat 1) with 256. change (256 ^ N.of_nat 0) with 1.
  rewrite N.div_1_r. reflexivity.
Qed.

Lemma set_u24_spec l v :
  set_u24 l v = if (3 <=? length l)%nat then Ok (to_be 3 v ++ skipn 3 l) else Panic.
Proof.
  destruct l as [|b0 [|b1 [|b2 l]]]; [reflexivity|reflexivity|reflexivity|].
  unfold set_u24. rewrite !shr_byte. cbn. unfold cast, U8.
  change (256 ^ N.of_nat 2) with (2 ^ 16). change (256 ^ N.of_nat 1) with (2 ^ 8).
  change (256 ^ N.of_nat 0) with 1.
  rewrite N.div_1_r. reflexivity.
Qed.

Lemma set_u32_spec l v :
  set_u32 l v = if (4 <=? length l)%nat then Ok (to_be 4 v ++ skipn 4 l) else Panic.
Proof.
  destruct l as [|b0 [|b1 [|b2 [|b3 l]]]]; [reflexivity|reflexivity|reflexivity|reflexivity|].
  unfold set_u32. rewrite !shr_byte. cbn. unfold cast, U8.
  change (256 ^ N.of_nat 3) with (2 ^ 24).
  change (256 ^ N.of_nat 2) with (2 ^ 16). change (256 ^ N.of_nat 1) with (2 ^ 8).
  change (256 ^ N.of_nat 0) with 1.
  rewrite N.div_1_r. reflexivity.
Qed.

Lemma get_u16_app l r : bytes l -> length l = 2%nat -> get_u16 (l ++ r) = Ok (be l).
Proof.
  intros H Hl. destruct l as [|b0 [|b1 [|? ?]]]; try discriminate. destruct_bytes.
  unfold get_u16. cbn. rewrite lor2 by assumption. f_equal. lia.
Qed.
Lemma get_u24_app l r : bytes l -> length l = 3%nat -> get_u24 (l ++ r) = Ok (be l).
Proof.
  intros H Hl. destruct l as [|b0 [|b1 [|b2 [|? ?]]]]; try discriminate. destruct_bytes.
  unfold get_u24. cbn. rewrite lor3 by assumption. f_equal. lia.
Qed.
Lemma get_u32_app l r : bytes l -> length l = 4%nat -> get_u32 (l ++ r) = Ok (be l).
Proof.
  intros H Hl. destruct l as [|b0 [|b1 [|b2 [|b3 [|? ?]]]]]; try discriminate. destruct_bytes.
  unfold get_u32. cbn. rewrite lor4 by assumption. f_equal. lia.
Qed.

Lemma set_u16_app l r v : length l = 2%nat -> set_u16 (l ++ r) v = Ok (to_be 2 v ++ r).
Proof. intros Hl. rewrite set_u16_spec. destruct l as [|b0 [|b1 [|? ?]]]; try discriminate. reflexivity. Qed.
Lemma set_u24_app l r v : length l = 3%nat -> set_u24 (l ++ r) v = Ok (to_be 3 v ++ r).
Proof. intros Hl. rewrite set_u24_spec. destruct l as [|b0 [|b1 [|b2 [|? ?]]]]; try discriminate. reflexivity. Qed.
Lemma set_u32_app l r v : length l = 4%nat -> set_u32 (l ++ r) v = Ok (to_be 4 v ++ r).
Proof. intros Hl. rewrite set_u32_spec. destruct l as [|b0 [|b1 [|b2 [|b3 [|? ?]]]]]; try discriminate. reflexivity. Qed.

Lemma set_get_u16 l l' v : set_u16 l v = Ok l' -> get_u16 l' = Ok (v mod 65536).
Proof.
  rewrite set_u16_spec. destruct (Nat.leb_spec 2 (length l)); [|discriminate]. intros E.
  assert (El : l' = to_be 2 v ++ skipn 2 l) by congruence. rewrite El.
  rewrite get_u16_app by (try apply to_be_bytes; apply to_be_length). rewrite be_to_be. reflexivity.
Qed.
Lemma set_get_u24 l l' v : set_u24 l v = Ok l' -> get_u24 l' = Ok (v mod 16777216).
Proof.
  rewrite set_u24_spec. destruct (Nat.leb_spec 3 (length l)); [|discriminate]. intros E.
  assert (El : l' = to_be 3 v ++ skipn 3 l) by congruence. rewrite El.
  rewrite get_u24_app by (try apply to_be_bytes; apply to_be_length). rewrite be_to_be. reflexivity.
Qed.
Lemma set_get_u32 l l' v : set_u32 l v = Ok l' -> get_u32 l' = Ok (v mod 4294967296).
Proof.
  rewrite set_u32_spec. destruct (Nat.leb_spec 4 (length l)); [|discriminate]. intros E.
  assert (El : l' = to_be 4 v ++ skipn 4 l) by congruence. rewrite El.
  rewrite get_u32_app by (try apply to_be_bytes; apply to_be_length). rewrite be_to_be. reflexivity.
Qed.
