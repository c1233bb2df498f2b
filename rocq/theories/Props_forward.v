(** Property theorems C65, C66: access to received descriptors, and descriptors that pass
    through (read from one stream, written to another). Specification: S_desc, S_forward. *)
From Verif Require Import Prelude Layout S_utils S_text M_text M_desc M_access S_desc S_forward Props_desc.
From Verif Require P_desc P_desc3 W_desc P_forward P_forward2 P_forward3 P_access.

(** ** vocabulary of the statements *)
(** the type that a consumer expects under a tag *)
Definition expected (t : N) : kind :=
  match t with
  | 0x09 => K09 | 0x0A => K0A | 0x0E => K0E | 0x40 => K40 | 0x41 => K41 | 0x43 => K43 | 0x44 => K44 | 0x48 => K48
  | 0x4D => K4D | 0x4E => K4E | 0x52 => K52 | 0x58 => K58 | 0x5A => K5A | 0x83 => K83 | _ => KRaw
  end.

(** * C65 *)
(** a received loop: one element per record, in order, under the tag of the record; the
    typed view of an element is there exactly if the record has a suitable length, else
    asking for it aborts *)
Theorem C65_access : forall m recs tail ds, recs_ok recs -> incomplete tail ->
  descs_parse m descs_default (loop_of recs ++ tail) = Ok ds ->
  descs_len ds = length recs /\ (descs_is_empty ds = true <-> recs = []) /\ descs_iter ds = ds /\
  (forall i, (length recs <= i)%nat -> descs_get ds i = None) /\
  (forall i t b, nth_error recs i = Some (t, b) -> exists d, descs_get ds i = Some d /\ desc_tag d = t /\
     (well_sized t b -> downcast_ref (expected t) d = Ok d) /\
     (~ well_sized t b -> downcast_ref (expected t) d = Panic)).
Proof.
  intros m recs tail ds R T E. apply C31_one_per_record in E; [|assumption|assumption]. destruct E as (ds' & -> & F).
  change (descs_default ++ ds') with ds'. unfold descs_len, descs_iter, descs_get.
  assert (L : length ds' = length recs) by (clear - F; induction F; cbn [length]; lia). split; [auto|]. split; [|split; [reflexivity|split]].
  - destruct F; cbn [descs_is_empty]; split; intros Q; try discriminate; reflexivity.
  - intros i H. apply nth_error_None. lia.
  - clear T L. revert R. induction F as [|[t0 b0] d recs ds' P F IH]; intros R i t b H; [destruct i; discriminate|].
    inversion R as [|? ? (_ & _ & R0) R']; subst. destruct i as [|i].
    + injection H as -> ->. exists d. split; [reflexivity|]. cbn [fst snd] in *. apply (P_access.downcast_iff m); assumption.
    + apply (IH R' i t b H).
Qed.
Print Assumptions C65_access.
(** dispatching on the tag is not safe: every tag with a type of its own but 0x40 can come
    with a length that makes the typed view abort *)
Theorem C65_dispatch_refuted : forall t, In t supported -> t <> 0x40 -> exists b d, bytes b /\ (length b < 256)%nat /\
  descs_parse Debug [] (tlv t b) = Ok [d] /\ desc_tag d = t /\ downcast_ref (expected (desc_tag d)) d = Panic.
Proof.
  intros t H N. exists [1; 2], (DRaw (mkRaw t [1; 2])). split; [concrete|]. split; [cbn; lia|]. cbn [In supported] in H.
  repeat destruct H as [<-|H]; try contradiction; try congruence; split; vm_compute; auto.
Qed.
Print Assumptions C65_dispatch_refuted.
(** pushing appends one record to the loop that is sent *)
Theorem C65_push : forall m ds d b, Forall desc_ok ds -> desc_ok d ->
  descs_get (descs_push ds d) (descs_len ds) = Some d /\
  descs_assemble m (descs_push ds d) b =
    Ok (b ++ loop_of (map record ds) ++ tlv (desc_tag d) (body d), length (loop_of (map record ds) ++ tlv (desc_tag d) (body d))).
Proof.
  intros m ds d b F D. unfold descs_push, descs_get, descs_len. split.
  - rewrite nth_error_app2 by lia. rewrite Nat.sub_diag. reflexivity.
  - rewrite C30_assemble by (apply Forall_app; auto). unfold loop_of. rewrite map_app, flat_map_app. cbn [map flat_map record fst snd].
    rewrite app_nil_r. reflexivity.
Qed.
Print Assumptions C65_push.
(** changing an element changes its record only *)
Theorem C65_get_mut : forall m ds i d f ds' b, Forall desc_ok ds -> nth_error ds i = Some d -> desc_ok (f d) ->
  descs_get_mut ds i f = Some ds' ->
  descs_assemble m ds' b =
    let w := loop_of (map record (firstn i ds)) ++ tlv (desc_tag (f d)) (body (f d)) ++ loop_of (map record (skipn (S i) ds)) in
    Ok (b ++ w, length w).
Proof.
  intros m ds i d f ds' b F N D E. unfold descs_get_mut in E. rewrite N in E. injection E as <-.
  assert (F1 : Forall desc_ok (firstn i ds)) by (rewrite <- (firstn_skipn i ds) in F; apply Forall_app in F; tauto).
  assert (F2 : Forall desc_ok (skipn (S i) ds)) by (rewrite <- (firstn_skipn (S i) ds) in F; apply Forall_app in F; tauto).
  rewrite C30_assemble by (apply Forall_app; auto). unfold loop_of. rewrite map_app, flat_map_app. cbn [map flat_map record fst snd].
  cbv zeta. reflexivity.
Qed.
Print Assumptions C65_get_mut.
Example C65_ex : exists ds, descs_parse Debug descs_default [0x52; 1; 7; 0x52; 2; 7; 7; 0x90; 1; 5; 0x40; 9] = Ok ds /\
  descs_len ds = 3%nat /\ descs_get ds 0 = Some (D52 7) /\ downcast_ref K52 (D52 7) = Ok (D52 7) /\
  descs_get ds 1 = Some (DRaw (mkRaw 0x52 [7; 7])) /\ downcast_ref K52 (DRaw (mkRaw 0x52 [7; 7])) = Panic /\
  descs_get ds 2 = Some (DRaw (mkRaw 0x90 [5])) /\ descs_get ds 3 = None.
Proof. eexists. split; [vm_compute; reflexivity|]. repeat split. Qed.
Example C65_push_ex : descs_push [D52 7] (D0E (mk0E 77)) = [D52 7; D0E (mk0E 77)] /\
  descs_assemble Debug (descs_push [D52 7] (D0E (mk0E 77))) [9] = Ok ([9; 0x52; 1; 7; 0x0E; 3; 0xC0; 0; 77], 8%nat) /\
  descs_get_mut [D52 7; D0E (mk0E 77)] 0 (fun _ => D52 8) = Some [D52 8; D0E (mk0E 77)] /\
  descs_get_mut [D52 7] 1 (fun d => d) = None.
Proof. repeat split; vm_compute; reflexivity. Qed.

(** * C66 *)
(** a record that holds nothing but what its type keeps comes out byte for byte *)
Theorem C66_same : forall m t b d w, t < 256 -> bytes b -> (length b < 256)%nat -> reads b t d -> faithful t b ->
  desc_parse m (tlv t b) = Ok d /\ desc_assemble m d w = Ok (w ++ tlv t b).
Proof.
  intros m t b d w Ht Hb Hl R F. pose proof (C27_read m t b d Hb Hl R) as E. split; [exact E|].
  destruct (P_forward2.same_body t b d Hb Hl Ht R F) as (B & Fo & NI). destruct (P_access.parse_kind m t b d Hl E) as (T & _).
  rewrite C27_written; [rewrite B, T; reflexivity|]. split; [exact Fo|]. split; [rewrite B; exact Hl|exact NI].
Qed.
Print Assumptions C66_same.
(** ... and only such a record *)
Theorem C66_needed : forall m t b d, bytes b -> (length b < 256)%nat -> desc_parse Debug (tlv t b) = Ok d -> desc_ok d ->
  desc_assemble m d [] = Ok (tlv t b) -> faithful t b.
Proof.
  intros m t b d Hb Hl E D A. apply (C32_record_debug t b Hb Hl) in E as R. rewrite C27_written in A by exact D. injection A as A0 A1 A.
  eapply P_forward3.kept_needed; eassumption.
Qed.
Print Assumptions C66_needed.
(** whole loops *)
Theorem C66_loop : forall m recs tail b, recs_ok recs -> incomplete tail ->
  Forall (fun r => (exists d, reads (snd r) (fst r) d) /\ faithful (fst r) (snd r)) recs ->
  exists ds, descs_parse m descs_default (loop_of recs ++ tail) = Ok ds /\
    descs_assemble m ds b = Ok (b ++ loop_of recs, length (loop_of recs)).
Proof.
  intros m recs tail b R T F.
  assert (X : exists ds, Forall2 (fun r d => desc_parse m (tlv (fst r) (snd r)) = Ok d) recs ds /\ Forall desc_ok ds /\ map record ds = recs).
  { clear T. induction R as [|[t x] recs (R1 & R2 & R3) R IH]; [exists []; repeat constructor|].
    inversion F as [|? ? [[d Hd] Hf] F']; subst. destruct (IH F') as (ds & I1 & I2 & I3). cbn [fst snd] in *.
    pose proof (C27_read m t x d R2 R3 Hd) as E. destruct (P_forward2.same_body t x d R2 R3 R1 Hd Hf) as (B & Fo & NI).
    destruct (P_access.parse_kind m t x d R3 E) as (T & _).
    exists (d :: ds). split; [constructor; assumption|]. split.
    - constructor; [|exact I2]. split; [exact Fo|]. split; [rewrite B; exact R3|exact NI].
    - cbn [map]. rewrite I3. unfold record. rewrite T, B. reflexivity. }
  destruct X as (ds & X1 & X2 & X3). exists ds. split.
  - apply C31_one_per_record; [assumption|assumption|]. exists ds. auto.
  - rewrite C30_assemble by exact X2. rewrite X3. reflexivity.
Qed.
Print Assumptions C66_loop.
(** service lists, stream identifiers and unknown descriptors always pass *)
Theorem C66_always : forall t b, In t [0x41; 0x52] \/ ~ In t supported -> (exists d, reads b t d) /\ faithful t b.
Proof.
  intros t b [H|H].
  - split; [apply safe_read; cbn [In] in *; destruct H as [<-|[<-|[]]]; cbn; intuition discriminate|].
    cbn [In] in H. destruct H as [<-|[<-|[]]]; exact I.
  - split; [eexists; apply rRaw; exact H|apply P_forward3.faithful_other; exact H].
Qed.
Print Assumptions C66_always.
Ltac witness := eexists; eexists; split; [concrete|]; split; [concrete|]; split; [vm_compute; reflexivity|];
  split; [vm_compute; reflexivity|discriminate].
(** every other type can come out different *)
Theorem C66_same_refuted : forall t, In t supported -> ~ In t [0x41; 0x52] -> exists b d w, bytes b /\ (length b < 256)%nat /\
  desc_parse Debug (tlv t b) = Ok d /\ desc_assemble Debug d [] = Ok w /\ w <> tlv t b.
Proof.
  intros t H N. cbn [In supported] in H. repeat destruct H as [<-|H]; try contradiction; try (exfalso; apply N; cbn; tauto).
  - exists [1; 2; 3; 4]. witness.
  - exists [0x10; 0; 5; 1]. witness.
  - exists [0; 0; 1]. witness.
  - exists [0; 0x41]. witness.
  - exists [0; 0; 0; 0; 0; 0; 0; 2; 0x75; 0; 0x53]. witness.
  - exists [0; 0; 0; 0; 0xFF; 0xF0; 0; 0; 0x68; 0x75; 0x10]. witness.
  - exists [1; 0; 1; 5]. witness.
  - exists [0x10; 0; 5; 0; 0]. witness.
  - exists [0; 0x41; 0x42; 0x43; 2; 0; 0; 0]. witness.
  - exists [0x41; 0x42; 0x43; 0; 0; 0; 0x9E; 0x8B; 0; 0; 0; 0; 0]. witness.
  - exists [0; 0; 0; 1; 0; 0; 0; 0; 0; 0; 0]. witness.
  - exists [0; 1; 0; 2]. witness.
Qed.
Print Assumptions C66_same_refuted.
(** worse, the record that comes out can be shorter than its length byte says, so that it
    swallows what follows: a language code that looks like a code page selector *)
Theorem C66_framing_refuted : exists b ds w, bytes b /\ descs_parse Debug [] (tlv 0x0A b ++ tlv 0x52 [7]) = Ok ds /\
  descs_assemble Debug ds [] = Ok (w, 6%nat) /\ descs_size ds = 9%nat /\ length w = 6%nat /\
  exists d, descs_parse Debug [] w = Ok [d] /\ desc_tag d = 0x0A.
Proof.
  exists [0x10; 0; 5; 1]. eexists. eexists. split; [concrete|]. split; [vm_compute; reflexivity|]. split; [vm_compute; reflexivity|].
  split; [vm_compute; reflexivity|]. split; [reflexivity|]. eexists. split; vm_compute; reflexivity.
Qed.
Print Assumptions C66_framing_refuted.
(** a text without a code page selector is written with one: a name of 255 bytes no longer
    fits and its length byte wraps *)
Theorem C66_long_text_refuted : exists b d w, bytes b /\ length b = 255%nat /\ desc_parse Debug (tlv 0x40 b) = Ok d /\
  desc_assemble Debug d [] = Ok w /\ length w = 259%nat /\ nth 1 w 0 = 1.
Proof.
  exists (0 :: repeat 0x41 254). eexists. eexists. split; [concrete|]. split; [reflexivity|]. split; [vm_compute; reflexivity|].
  split; [vm_compute; reflexivity|]. split; reflexivity.
Qed.
Print Assumptions C66_long_text_refuted.
Example C66_ex : faithful 0x83 [0; 1; 0xFC; 2; 0; 2; 0x7C; 3] /\
  reads [0; 1; 0xFC; 2; 0; 2; 0x7C; 3] 0x83 (D83 [mk83i 1 1 2; mk83i 2 0 3]) /\
  desc_assemble Debug (D83 [mk83i 1 1 2; mk83i 2 0 3]) [9] = Ok [9; 0x83; 8; 0; 1; 0xFC; 2; 0; 2; 0x7C; 3] /\
  ~ faithful 0x83 [0; 1; 0; 2].
Proof.
  split; [intros _; repeat constructor; vm_compute; reflexivity|]. split; [apply (r83 [0; 1; 0xFC; 2; 0; 2; 0x7C; 3]); reflexivity|].
  split; [vm_compute; reflexivity|]. intros H. specialize (H eq_refl). inversion H as [|? ? Q _]. vm_compute in Q. discriminate.
Qed.
Example C66_needed_ex : let b := [1; 2; 0x41; 0x42; 5; 0x42] in
  desc_parse Debug (tlv 0x48 b) = Ok (DRaw (mkRaw 0x48 b)) /\ desc_assemble Release (DRaw (mkRaw 0x48 b)) [] = Ok (tlv 0x48 b) /\
  faithful 0x48 b.
Proof.
  cbv zeta. split; [vm_compute; reflexivity|]. split; [vm_compute; reflexivity|]. intros _ H. vm_compute in H. discriminate.
Qed.
Example C66_loop_ex : exists ds, descs_parse Debug [] [0x52; 1; 7; 0x0E; 3; 0xC0; 0; 77; 0x0E; 1; 9; 0x66; 0] = Ok ds /\
  length ds = 4%nat /\ descs_assemble Debug ds [] = Ok ([0x52; 1; 7; 0x0E; 3; 0xC0; 0; 77; 0x0E; 1; 9; 0x66; 0], 13%nat).
Proof. eexists. split; [vm_compute; reflexivity|]. split; [reflexivity|vm_compute; reflexivity]. Qed.
