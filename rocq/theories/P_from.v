(** Proofs for C74. *)
From Verif Require Import Prelude Layout S_crc S_psi S_noise M_psi.
From Verif Require Import P_crc Facts.
From Verif Require W_psi P_noise.

Lemma xor_self l : xor_bytes l (repeat 0 (length l)) = l.
Proof. induction l as [|x l IH]; [reflexivity|]. cbn. rewrite N.lxor_0_r, IH. reflexivity. Qed.
Lemma xor_app a e b f : length a = length e -> xor_bytes (a ++ b) (e ++ f) = xor_bytes a e ++ xor_bytes b f.
Proof. revert e. induction a as [|x a IH]; intros [|y e] L; try discriminate; [reflexivity|]. cbn. rewrite IH by (cbn in L; lia). reflexivity. Qed.
Lemma unpack_zero n : unpack (repeat 0 n) = repeat false (8 * n).
Proof. induction n as [|n IH]; [reflexivity|]. cbn [repeat]. change (unpack (0 :: repeat 0 n)) with (repeat false 8 ++ unpack (repeat 0 n)). rewrite IH, <- repeat_app. f_equal. lia. Qed.
Lemma unpack_app a b : unpack (a ++ b) = unpack a ++ unpack b.
Proof. unfold unpack. apply flat_map_app. Qed.
Lemma count_zero n : count_occ Bool.bool_dec (repeat false n) true = 0%nat.
Proof. induction n as [|n IH]; [reflexivity|]. cbn. exact IH. Qed.

(** errors in the front of a section are errors in the section *)
Lemma front_errors a b tail : few_errors a b -> few_errors (a ++ tail) (b ++ tail).
Proof.
  intros (e & Be & Le & -> & H). exists (e ++ repeat 0 (length tail)). split; [|split; [|split]].
  - apply Forall_app. split; [exact Be|]. apply Forall_forall. intros x Hx. apply repeat_spec in Hx as ->. reflexivity.
  - rewrite !app_length, repeat_length, Le. reflexivity.
  - rewrite xor_app by (symmetry; exact Le). rewrite xor_self. reflexivity.
  - destruct H as [H|(w & Hw & x & y & z & E & L & I)].
    + left. unfold weight in *. rewrite unpack_app, unpack_zero, count_occ_app, count_zero. lia.
    + right. exists w. split; [exact Hw|]. exists x, y, (z + 8 * length tail)%nat. split; [|split; assumption].
      rewrite unpack_app, unpack_zero, E, <- !app_assoc, <- repeat_app. reflexivity.
Qed.
Lemma errors_crc s s' : section_ok s -> few_errors s s' -> crc_spec s' <> 0.
Proof.
  intros (Bs & Ls & _ & C) (e & Be & Le & -> & H). apply crc_error_detected; [congruence|exact C|].
  destruct H as [H|(w & Hw & H)]; [apply weight_run; [rewrite Le; apply P_noise.framed_short; split; assumption|exact H]|apply (burst_run e w); assumption].
Qed.

Definition holds (p : psi) (s : list N) : Prop := section_ok s /\ p_size p = length s /\ exists extra, p_buffer p = s ++ extra /\ bytes extra.
Lemma change_seen p q a b : holds p a -> holds q b -> few_errors (firstn (length a - 4) a) (firstn (length b - 4) b) -> psi_eq p q = Ok false.
Proof.
  intros ((Ba & La & Na & Ca) & Sp & xa & Ep & Xa) ((Bb & Lb & Nb & Cb) & Sq & xb & Eq & Xb) F.
  destruct (W_psi.eq_complete p q) as (r & E & R).
  - rewrite Ep. apply Forall_app. split; assumption.
  - rewrite Eq. apply Forall_app. split; assumption.
  - rewrite Ep, app_length. lia.
  - rewrite Eq, app_length. lia.
  - rewrite E. f_equal. destruct r; [|reflexivity]. exfalso. destruct (proj1 R eq_refl) as [Es Et]. rewrite Sp, Sq in Es.
    rewrite Sp, Sq, Ep, Eq, !skipn_app, !firstn_app in Et.
    replace (length a - 4 - length a)%nat with O in Et by lia. replace (length b - 4 - length b)%nat with O in Et by lia.
    rewrite !skipn_length in Et. replace (4 - (length a - (length a - 4)))%nat with O in Et by lia.
    replace (4 - (length b - (length b - 4)))%nat with O in Et by lia. rewrite !firstn_O, !app_nil_r in Et.
    assert (T : forall l : list N, (8 <= length l)%nat -> firstn 4 (skipn (length l - 4) l) = skipn (length l - 4) l).
    { intros l Hl. apply firstn_all2. rewrite skipn_length. lia. }
    rewrite (T a Na), (T b Nb) in Et.
    apply (front_errors _ _ (skipn (length a - 4) a)) in F. rewrite firstn_skipn in F. rewrite Et, firstn_skipn in F.
    apply (errors_crc a b); [split; [exact Ba|split; [exact La|split; [exact Na|exact Ca]]]|exact F|exact Cb].
Qed.
