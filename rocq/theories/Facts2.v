(** More general lemmas: lists, fields. *)
From Verif Require Import Prelude Layout Facts.

Lemma field_prefix l1 l2 off w : (off + w <= 8 * length l1)%nat ->
  field (l1 ++ l2) off w = field l1 off w.
Proof.
  intros H. unfold field. rewrite unpack_app, skipn_app, firstn_app, unpack_length, skipn_length, unpack_length.
  replace (w - (8 * length l1 - off))%nat with 0%nat by lia.
  rewrite firstn_O, app_nil_r. reflexivity.
Qed.
