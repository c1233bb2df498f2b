(** Proofs: access to parsed descriptors. *)
From Verif Require Import Prelude Layout Facts Facts2 S_utils S_text M_bytes M_utils M_text M_desc M_access S_desc P_desc P_desc2 P_desc3 W_desc S_forward P_forward P_forward2 P_forward3.

(** the type that a consumer expects under a tag *)
Definition expected (t : N) : kind :=
  match t with
  | 0x09 => K09 | 0x0A => K0A | 0x0E => K0E | 0x40 => K40 | 0x41 => K41 | 0x43 => K43 | 0x44 => K44 | 0x48 => K48
  | 0x4D => K4D | 0x4E => K4E | 0x52 => K52 | 0x58 => K58 | 0x5A => K5A | 0x83 => K83 | _ => KRaw
  end.

Lemma arm_typed {A} (c : bool) (p : list N -> res A) (k : A -> desc) t b d (P : Prop) : (length b < 256)%nat -> (c = true <-> P) ->
  (forall x, desc_tag (k x) = t) ->
  arm c p k (tlv t b) = Ok d -> desc_tag d = t /\ ((P /\ exists x, d = k x) \/ (~ P /\ d = DRaw (mkRaw t b))).
Proof.
  intros Hl HP T E. unfold arm in E. destruct c.
  - apply bind_inv in E. destruct E as (x & _ & [= <-]). split; [apply T|]. left. split; [tauto|eauto].
  - rewrite parse_raw_ok in E by exact Hl. injection E as <-. split; [reflexivity|]. right. split; [|reflexivity]. intros H. apply HP in H. discriminate.
Qed.

Lemma mod_check k (b : list N) : (0 < k)%nat -> ((2 <=? 2 + length b) && ((2 + length b - 2) mod k =? 0) = true <-> length b mod k = 0)%nat.
Proof.
  intros _. replace (2 + length b - 2)%nat with (length b) by lia. destruct (Nat.leb_spec 2 (2 + length b)); [|lia]. cbn [andb].
  apply Nat.eqb_eq.
Qed.
Lemma check48 b c : (length b < 256)%nat -> x48_check (tlv 0x48 b) = Ok c -> (c = true <-> well_sized 0x48 b).
Proof.
  intros Hl. cbn [well_sized]. unfold x48_check. rewrite tlv_length. destruct (Nat.ltb_spec (2 + length b) 5).
  { intros [= <-]. split; [discriminate|lia]. }
  change (get (tlv 72 b) 3) with (get (tlv 72 b) (2 + 1)). rewrite get_tlv.
  destruct (Nat.ltb_spec 1 (length b)); [|lia]. cbn [bind]. fold (len_at b 1).
  replace (4 + len_at b 1)%nat with (2 + (2 + len_at b 1))%nat by lia. rewrite get_tlv.
  destruct (Nat.ltb_spec (2 + len_at b 1) (length b)); [|discriminate].
  cbn [bind]. rewrite get_tlv1. cbn [bind]. fold (len_at b (2 + len_at b 1)). rewrite Nat2N.id. intros [= <-].
  rewrite Nat.eqb_eq. intuition lia.
Qed.
Lemma check4D b c : (length b < 256)%nat -> x4D_check (tlv 0x4D b) = Ok c -> (c = true <-> well_sized 0x4D b).
Proof.
  intros Hl. cbn [well_sized]. unfold x4D_check. rewrite tlv_length. destruct (Nat.ltb_spec (2 + length b) 7).
  { intros [= <-]. split; [discriminate|lia]. }
  change (get (tlv 77 b) 5) with (get (tlv 77 b) (2 + 3)). rewrite get_tlv.
  destruct (Nat.ltb_spec 3 (length b)); [|lia]. cbn [bind]. fold (len_at b 3).
  replace (6 + len_at b 3)%nat with (2 + (4 + len_at b 3))%nat by lia. rewrite get_tlv.
  destruct (Nat.ltb_spec (4 + len_at b 3) (length b)); [|discriminate].
  cbn [bind]. rewrite get_tlv1. cbn [bind]. fold (len_at b (4 + len_at b 3)). rewrite Nat2N.id. intros [= <-].
  rewrite Nat.eqb_eq. intuition lia.
Qed.
Lemma check4E b c : (length b < 256)%nat -> x4E_check (tlv 0x4E b) = Ok c -> (c = true <-> well_sized 0x4E b).
Proof.
  intros Hl. cbn [well_sized]. unfold x4E_check. rewrite tlv_length. destruct (Nat.ltb_spec (2 + length b) 8).
  { intros [= <-]. split; [discriminate|lia]. }
  change (get (tlv 78 b) 6) with (get (tlv 78 b) (2 + 4)). rewrite get_tlv.
  destruct (Nat.ltb_spec 4 (length b)); [|lia]. cbn [bind]. fold (len_at b 4).
  replace (7 + len_at b 4)%nat with (2 + (5 + len_at b 4))%nat by lia. rewrite get_tlv.
  destruct (Nat.ltb_spec (5 + len_at b 4) (length b)); [|discriminate].
  cbn [bind]. rewrite get_tlv1. cbn [bind]. fold (len_at b (5 + len_at b 4)). rewrite Nat2N.id. intros [= <-].
  rewrite Nat.eqb_eq. intuition lia.
Qed.

Lemma other_sized t b : ~ In t supported -> well_sized t b /\ expected t = KRaw.
Proof.
  intros U. destruct t as [|p]; [split; [exact I|reflexivity]|].
  do 8 (try (destruct p as [p|p|]; try (split; [exact I|reflexivity]))); exfalso; apply U; cbn; tauto.
Qed.

Lemma parse_kind m t b d : (length b < 256)%nat -> desc_parse m (tlv t b) = Ok d ->
  desc_tag d = t /\ ((well_sized t b /\ boxed d = expected t) \/ (~ well_sized t b /\ d = DRaw (mkRaw t b) /\ In t supported)).
Proof.
  intros Hl E. destruct (in_dec N.eq_dec t supported) as [I|I].
  - cbn [In supported] in I.
    assert (K : forall P k, expected t = k -> (P <-> well_sized t b) ->
      (desc_tag d = t /\ ((P /\ boxed d = k) \/ (~ P /\ d = DRaw (mkRaw t b)))) ->
      desc_tag d = t /\ ((well_sized t b /\ boxed d = expected t) \/ (~ well_sized t b /\ d = DRaw (mkRaw t b) /\ In t supported))).
    { intros P k X Y (Z1 & Z2). rewrite X. split; [exact Z1|]. cbn [In supported]. tauto. }
    assert (W : forall A (c : bool) (p : list N -> res A) (k : A -> desc) kd P, expected t = kd -> (c = true <-> P) -> (P <-> well_sized t b) ->
      (forall x, desc_tag (k x) = t) -> (forall x, boxed (k x) = kd) -> arm c p k (tlv t b) = Ok d ->
      desc_tag d = t /\ ((well_sized t b /\ boxed d = expected t) \/ (~ well_sized t b /\ d = DRaw (mkRaw t b) /\ In t supported))).
    { intros A c p k kd P X1 X2 X3 X4 X5 X6. apply (K P kd X1 X3). destruct (arm_typed c p k t b d P Hl X2 X4 X6) as (Y & [[Y1 [x ->]]|Y1]); auto. }
    clear K.
    repeat destruct I as [<-|I]; try contradiction.
    + apply (W _ (x09_check (tlv 9 b)) x09_parse D09 K09 (4 <= length b)%nat); try reflexivity; [|exact E].
      unfold x09_check. rewrite tlv_length, Nat.leb_le. lia.
    + apply (W _ (x0A_check (tlv 10 b)) (x0A_parse m) D0A K0A (length b mod 4 = 0)%nat); try reflexivity; [|exact E].
      unfold x0A_check. rewrite tlv_length. apply mod_check. lia.
    + apply (W _ (x0E_check (tlv 14 b)) x0E_parse D0E K0E (length b = 3)%nat); try reflexivity; [|exact E].
      unfold x0E_check. rewrite tlv_length, Nat.eqb_eq. lia.
    + apply (W _ (x40_check (tlv 64 b)) (x40_parse m) D40 K40 True); try reflexivity; [|exact E].
      unfold x40_check. rewrite tlv_length, Nat.leb_le. intuition lia.
    + apply (W _ (x41_check (tlv 65 b)) x41_parse D41 K41 (length b mod 3 = 0)%nat); try reflexivity; [|exact E].
      unfold x41_check. rewrite tlv_length. apply mod_check. lia.
    + apply (W _ (x43_check (tlv 67 b)) (x43_parse m) D43 K43 (length b = 11)%nat); try reflexivity; [|exact E].
      unfold x43_check. rewrite tlv_length, Nat.eqb_eq. lia.
    + apply (W _ (x44_check (tlv 68 b)) (x44_parse m) D44 K44 (length b = 11)%nat); try reflexivity; [|exact E].
      unfold x44_check. rewrite tlv_length, Nat.eqb_eq. lia.
    + change (desc_parse m (tlv 72 b)) with (c <- x48_check (tlv 72 b) ;; arm c (x48_parse m) D48 (tlv 72 b)) in E.
      apply bind_inv in E. destruct E as (c & C & E). apply (W _ c (x48_parse m) D48 K48 (well_sized 72 b)); try reflexivity; [|exact E].
      apply check48; assumption.
    + change (desc_parse m (tlv 77 b)) with (c <- x4D_check (tlv 77 b) ;; arm c (x4D_parse m) D4D (tlv 77 b)) in E.
      apply bind_inv in E. destruct E as (c & C & E). apply (W _ c (x4D_parse m) D4D K4D (well_sized 77 b)); try reflexivity; [|exact E].
      apply check4D; assumption.
    + change (desc_parse m (tlv 78 b)) with (c <- x4E_check (tlv 78 b) ;; arm c (x4E_parse m) D4E (tlv 78 b)) in E.
      apply bind_inv in E. destruct E as (c & C & E). apply (W _ c (x4E_parse m) D4E K4E (well_sized 78 b)); try reflexivity; [|exact E].
      apply check4E; assumption.
    + apply (W _ (x52_check (tlv 82 b)) x52_parse D52 K52 (length b = 1)%nat); try reflexivity; [|exact E].
      unfold x52_check. rewrite tlv_length, Nat.eqb_eq. lia.
    + apply (W _ (x58_check (tlv 88 b)) (x58_parse m) D58 K58 (length b mod 13 = 0)%nat); try reflexivity; [|exact E].
      unfold x58_check. rewrite tlv_length. apply mod_check. lia.
    + apply (W _ (x5A_check (tlv 90 b)) (x5A_parse m) D5A K5A (length b = 11)%nat); try reflexivity; [|exact E].
      unfold x5A_check. rewrite tlv_length, Nat.eqb_eq. lia.
    + apply (W _ (x83_check (tlv 131 b)) x83_parse D83 K83 (length b mod 4 = 0)%nat); try reflexivity; [|exact E].
      unfold x83_check. rewrite tlv_length. apply mod_check. lia.
  - destruct (other_sized t b I) as [W X]. assert (D : d = DRaw (mkRaw t b)).
    { destruct (out_raw m t b I Hl) as [(d' & R & P)|(NR & _)]; [|exfalso; eapply NR; apply rRaw; exact I].
      rewrite P in E. injection E as <-. inversion R; subst; try reflexivity; exfalso; apply I; cbn; tauto. }
    subst d. split; [reflexivity|]. left. split; [exact W|]. rewrite X. reflexivity.
Qed.

Lemma kind_eqb_spec a b : kind_eqb a b = true <-> a = b.
Proof. destruct a, b; cbn; split; intros H; try reflexivity; discriminate. Qed.
Lemma expected_typed t : In t supported -> expected t <> KRaw.
Proof. cbn [In supported]. intros H. repeat destruct H as [<-|H]; try discriminate; contradiction. Qed.

Lemma downcast_iff m t b d : (length b < 256)%nat -> desc_parse m (tlv t b) = Ok d ->
  desc_tag d = t /\ (well_sized t b -> downcast_ref (expected t) d = Ok d) /\ (~ well_sized t b -> downcast_ref (expected t) d = Panic).
Proof.
  intros Hl E. destruct (parse_kind m t b d Hl E) as (T & [[W B]|(W & -> & I)]).
  - split; [exact T|]. split; [|tauto]. intros _. unfold downcast_ref. rewrite B. destruct (kind_eqb (expected t) (expected t)) eqn:Q; [reflexivity|].
    assert (X : kind_eqb (expected t) (expected t) = true) by (apply kind_eqb_spec; reflexivity). congruence.
  - split; [exact T|]. split; [tauto|]. intros _. unfold downcast_ref. cbn [boxed]. pose proof (expected_typed t I) as X.
    destruct (kind_eqb (expected t) KRaw) eqn:Q; [|reflexivity]. apply kind_eqb_spec in Q. contradiction.
Qed.
