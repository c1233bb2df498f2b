(** Property theorems C27-C33: descriptors. Specification: S_desc. *)
From Verif Require Import Prelude Layout S_utils S_text M_text M_desc S_desc.
From Verif Require P_desc P_desc3 W_desc W_desc2.

(** ** vocabulary of the statements *)
(** the record of a descriptor *)
Definition record (d : desc) : N * list N := (desc_tag d, body d).
(** descriptors of a dedicated type *)
(** a raw descriptor under a tag that has a dedicated type *)
Definition misfit (d : desc) : Prop := match d with DRaw r => In (raw_tag r) supported | _ => False end.
(** records of bytes with a one-byte length *)
Definition recs_ok (recs : list (N * list N)) : Prop := Forall (fun r => fst r < 256 /\ bytes (snd r) /\ (length (snd r) < 256)%nat) recs.
Definition raw_of (r : N * list N) : desc := DRaw (mkRaw (fst r) (snd r)).

Definition ex_43 : desc := D43 (mk43 11044000 780 1 1 0 1 1 44948 3).
Definition ex_48 : desc := D48 (mk48 1 (mkDvb 5 [0xbf; 0xe0]) (mkDvb 0 [0x54; 0x56])).
Definition ex_4E (items : list (dvb * dvb)) : desc := D4E (mk4E 0 1 (mkDvb 0 [0x72; 0x75; 0x73]) items (mkDvb 5 [0xbf; 0xe0])).
Definition ex_58 : desc := D58 [mk58i (mkDvb 0 [0x47; 0x42; 0x52]) 3 1 60 1332633600 0].

(** concrete descriptors are in range *)
Ltac concrete :=
  unfold desc_ok, fields_ok, no_items, ex_43, ex_48, ex_4E, ex_58, ok_58i, code_ok, text_ok, bytes in *;
  repeat match goal with
  | |- True => exact I
  | |- _ /\ _ => split
  | |- Forall _ _ => constructor
  | |- (_ < _)%N => vm_compute; reflexivity
  | |- (_ < _)%nat => vm_compute; lia
  | |- @eq nat _ _ => vm_compute; reflexivity
  | |- @eq (list _) _ _ => reflexivity
  | |- ~ In _ _ => cbn; intuition discriminate
  end.

(** * C27 *)
Theorem C27_written : forall m d b, desc_ok d -> desc_assemble m d b = Ok (b ++ tlv (desc_tag d) (body d)).
Proof. exact P_desc.assemble_spec. Qed.
Print Assumptions C27_written.
Theorem C27_read : forall m t b d, bytes b -> (length b < 256)%nat -> reads b t d -> desc_parse m (tlv t b) = Ok d.
Proof. exact W_desc.parse_reads. Qed.
Print Assumptions C27_read.
Example C27_written_ex : desc_ok ex_43 /\ desc_assemble Debug ex_43 [7] =
  Ok [7; 0x43; 11; 0x01; 0x10; 0x44; 0x00; 0x01; 0x30; 0xA5; 0x04; 0x49; 0x48; 0x03].
Proof. split; [concrete|vm_compute; reflexivity]. Qed.
(** with the reserved bits of 0x83 and 0x5A cleared *)
Example C27_read_ex : reads [0x12; 0x34; 0x82; 0x05] 0x83 (D83 [mk83i 0x1234 1 0x205]) /\
  desc_parse Debug [0x83; 4; 0x12; 0x34; 0x82; 0x05] = Ok (D83 [mk83i 0x1234 1 0x205]) /\
  reads [0x02; 0xFA; 0xF0; 0x80; 0x18; 0x81; 0x1A; 0; 0; 0; 0] 0x5A (D5A (mk5A 500000000 0 1 1 0 2 0 1 0 3 1 0)) /\
  desc_parse Debug (0x5A :: 11 :: [0x02; 0xFA; 0xF0; 0x80; 0x18; 0x81; 0x1A; 0; 0; 0; 0]) = Ok (D5A (mk5A 500000000 0 1 1 0 2 0 1 0 3 1 0)).
Proof.
  split; [exact (r83 [0x12; 0x34; 0x82; 0x05] eq_refl)|]. split; [vm_compute; reflexivity|].
  split; [|vm_compute; reflexivity].
  exact (r5A [0x02; 0xFA; 0xF0; 0x80; 0x18; 0x81; 0x1A; 0; 0; 0; 0] eq_refl eq_refl).
Qed.

(** * C28 *)
Theorem C28_round_trip : forall m d b, desc_ok d -> exact d ->
  exists w, desc_assemble m d b = Ok (b ++ w) /\ desc_parse m w = Ok d.
Proof. exact W_desc.desc_round. Qed.
Print Assumptions C28_round_trip.
(** the condition cannot be weakened *)
Theorem C28_exact_needed : forall d w, desc_ok d ->
  desc_assemble Debug d [] = Ok w -> desc_parse Debug w = Ok d -> exact d.
Proof.
  intros d w H E P. rewrite P_desc.assemble_spec in E by assumption. injection E as <-. cbn [app] in P.
  apply W_desc2.exact_needed; [assumption|]. pose proof H as (_ & Hl & _).
  apply (W_desc.parse_debug (desc_tag d) (body d) (W_desc.body_bytes d H) Hl). assumption.
Qed.
Print Assumptions C28_exact_needed.
(** a descriptor whose values are all in range does not always come back: a local time offset
    of five hours aborts the reader *)
Theorem C28_round_trip_refuted : exists d w, desc_ok d /\ desc_assemble Debug d [] = Ok w /\ desc_parse Debug w = Panic.
Proof.
  exists (D58 [mk58i (mkDvb 0 [0x4B; 0x41; 0x5A]) 0 0 300 1332633600 300]), [88; 13; 75; 65; 90; 2; 5; 0; 218; 203; 0; 0; 0; 5; 0]. split; [|split; vm_compute; reflexivity].
  concrete.
Qed.
Print Assumptions C28_round_trip_refuted.
Example C28_ex : desc_ok ex_58 /\ exact ex_58 /\
  (b <- desc_assemble Debug ex_58 [] ;; desc_parse Debug b) = Ok ex_58.
Proof.
  split; [|split; [|vm_compute; reflexivity]].
  - concrete.
  - constructor; [|constructor]. split; [|split; reflexivity]. right. split; [discriminate|]. left. split; [reflexivity|]. cbn. lia.
Qed.

(** * C29 *)
Theorem C29_size : forall m d b, desc_ok d ->
  exists w, desc_assemble m d b = Ok (b ++ w) /\ desc_size d = length w.
Proof.
  intros m d b H. exists (tlv (desc_tag d) (body d)). split; [apply P_desc.assemble_spec; assumption|].
  destruct H as (F & _ & N). apply P_desc.size_body; assumption.
Qed.
Print Assumptions C29_size.
Theorem C29_loop_size : forall m ds b, Forall desc_ok ds ->
  exists w, descs_assemble m ds b = Ok (b ++ w, length w) /\ descs_size ds = length w.
Proof.
  intros m ds b H. eexists. split; [apply W_desc.descs_assemble_ok; assumption|]. apply W_desc.descs_size_ok; assumption.
Qed.
Print Assumptions C29_loop_size.
(** extended events: each item adds two bytes that neither size() nor the length byte count *)
Theorem C29_items : forall m d b, fields_ok (D4E d) -> (desc_size (D4E d) <= 257)%nat ->
  exists w, desc_assemble m (D4E d) b = Ok (b ++ w) /\
    (length w = desc_size (D4E d) + 2 * length (d4E_items d) /\ nth 1 w 0%N = N.of_nat (desc_size (D4E d) - 2))%nat.
Proof.
  intros m d b F L. eexists. split; [apply P_desc.x4E_written; [assumption|lia]|]. split; [|reflexivity].
  destruct F as (_ & _ & (_ & F) & _). cbn [length]. rewrite !app_length, F, W_desc2.items_len. cbn [desc_size length].
  rewrite (P_desc.text_size (d4E_text d)).
  unfold sized. cbn [length]. change (length (layout [(4%nat, d4E_num d); (4%nat, d4E_last d)])) with 1%nat. lia.
Qed.
Print Assumptions C29_items.
Theorem C29_size_refuted : exists d w, fields_ok d /\ (length (body d) < 256)%nat /\
  desc_assemble Debug d [] = Ok w /\ desc_size d <> length w.
Proof.
  exists (ex_4E [(mkDvb 0 [0x41], mkDvb 0 [0x42])]), [0x4E; 11; 1; 0x72; 0x75; 0x73; 4; 1; 0x41; 1; 0x42; 3; 1; 0xbf; 0xe0]. split; [|split; [vm_compute; lia|split; [vm_compute; reflexivity|discriminate]]].
  concrete.
Qed.
Print Assumptions C29_size_refuted.
(** raw descriptors of more than 255 bytes are dropped *)
Theorem C29_long_raw : forall m d b, (255 < length (raw_data d))%nat ->
  desc_assemble m (DRaw d) b = Ok b /\ (257 < desc_size (DRaw d))%nat.
Proof.
  intros m d b H. split; [|cbn [desc_size]; lia]. cbn [desc_assemble]. unfold raw_assemble.
  destruct (Nat.ltb_spec 255 (length (raw_data d))); [reflexivity|lia].
Qed.
Print Assumptions C29_long_raw.
Example C29_ex : desc_ok ex_48 /\ desc_size ex_48 = 10%nat /\
  desc_assemble Debug ex_48 [] = Ok [0x48; 8; 1; 3; 1; 0xbf; 0xe0; 2; 0x54; 0x56].
Proof. split; [concrete|split; vm_compute; reflexivity]. Qed.
Example C29_items_ex : desc_assemble Debug (ex_4E [(mkDvb 0 [0x41], mkDvb 0 [0x42])]) [] =
  Ok [0x4E; 11; 1; 0x72; 0x75; 0x73; 4; 1; 0x41; 1; 0x42; 3; 1; 0xbf; 0xe0].
Proof. vm_compute. reflexivity. Qed.
Example C29_long_raw_ex : desc_assemble Debug (DRaw (mkRaw 0x90 (repeat 0 256))) [1] = Ok [1].
Proof. vm_compute. reflexivity. Qed.

(** * C30 *)
Theorem C30_assemble : forall m ds b, Forall desc_ok ds ->
  descs_assemble m ds b = Ok (b ++ loop_of (map record ds), length (loop_of (map record ds))).
Proof. exact W_desc.descs_assemble_ok. Qed.
Print Assumptions C30_assemble.
Theorem C30_round_trip : forall m ds old, Forall desc_ok ds -> Forall exact ds ->
  descs_parse m old (loop_of (map record ds)) = Ok (old ++ ds).
Proof. exact W_desc.descs_round. Qed.
Print Assumptions C30_round_trip.
Example C30_ex : let ds := [D52 5; DRaw (mkRaw 0x90 [1; 2; 3]); D0E (mk0E 77)] in
  Forall desc_ok ds /\ Forall exact ds /\
  descs_assemble Debug ds [9] = Ok ([9; 0x52; 1; 5; 0x90; 3; 1; 2; 3; 0x0E; 3; 0xC0; 0; 77], 13%nat) /\
  descs_parse Debug [D52 6] [0x52; 1; 5; 0x90; 3; 1; 2; 3; 0x0E; 3; 0xC0; 0; 77] = Ok (D52 6 :: ds).
Proof.
  cbv zeta. split; [|split; [|split; vm_compute; reflexivity]].
  - concrete.
  - repeat (apply Forall_cons || apply Forall_nil); try exact I.
Qed.

(** * C31 *)
(** every byte string splits into complete records and an incomplete rest *)
Theorem C31_records : forall l, bytes l -> exists recs tail, l = loop_of recs ++ tail /\ incomplete tail /\ recs_ok recs.
Proof. exact W_desc.decompose. Qed.
Print Assumptions C31_records.
(** any loop: one descriptor per complete record, appended in order, the rest ignored *)
Theorem C31_one_per_record : forall m recs tail old out, recs_ok recs -> incomplete tail ->
  descs_parse m old (loop_of recs ++ tail) = Ok out <->
  exists ds, out = old ++ ds /\ Forall2 (fun r d => desc_parse m (tlv (fst r) (snd r)) = Ok d) recs ds.
Proof.
  intros m recs tail old out R I. rewrite (W_desc.descs_parse_records m old recs tail (W_desc.records_len _ R) I). split.
  - apply W_desc.parse_each_inv.
  - intros (ds & -> & F). apply W_desc.parse_each_ok. assumption.
Qed.
Print Assumptions C31_one_per_record.
Lemma unknown_each m recs : recs_ok recs -> Forall (fun r => ~ In (fst r) supported) recs ->
  Forall2 (fun r d => desc_parse m (tlv (fst r) (snd r)) = Ok d) recs (map raw_of recs).
Proof.
  induction 1 as [|[t b] recs (H1 & H2 & H3) F IH]; intros U; inversion U; subst; cbn [map]; constructor; [|auto].
  apply W_desc.parse_reads; [assumption|assumption|]. apply rRaw. assumption.
Qed.
Theorem C31_unknown_preserved : forall m recs tail old b, recs_ok recs -> Forall (fun r => ~ In (fst r) supported) recs -> incomplete tail ->
  descs_parse m old (loop_of recs ++ tail) = Ok (old ++ map raw_of recs) /\
  descs_assemble m (map raw_of recs) b = Ok (b ++ loop_of recs, length (loop_of recs)).
Proof.
  intros m recs tail old b R U I. split.
  - apply C31_one_per_record; [assumption|assumption|]. eexists. split; [reflexivity|]. apply unknown_each; assumption.
  - rewrite W_desc.descs_assemble_ok.
    + rewrite map_map. replace (map (fun x => (desc_tag (raw_of x), body (raw_of x))) recs) with recs; [reflexivity|].
      clear. induction recs as [|[t x] r IH]; cbn [map]; [reflexivity|]. f_equal. exact IH.
    + apply Forall_map. eapply Forall_impl; [|exact R]. intros [t x] (H1 & H2 & H3). split; [split; assumption|]. split; [exact H3|exact Logic.I].
Qed.
Print Assumptions C31_unknown_preserved.
Example C31_ex : descs_parse Debug [] [0x90; 2; 1; 2; 0x91; 0; 0x92; 3; 1] = Ok [DRaw (mkRaw 0x90 [1; 2]); DRaw (mkRaw 0x91 [])] /\
  descs_assemble Debug [DRaw (mkRaw 0x90 [1; 2]); DRaw (mkRaw 0x91 [])] [] = Ok ([0x90; 2; 1; 2; 0x91; 0], 6%nat) /\
  incomplete [0x92; 3; 1].
Proof. split; [vm_compute; reflexivity|]. split; [vm_compute; reflexivity|]. right. exists 0x92, 3, [1]. split; [reflexivity|]. cbn. lia. Qed.

(** * C32 *)
(** one record, with overflow checks: aborts exactly where nothing is specified *)
Theorem C32_record_debug : forall t b, bytes b -> (length b < 256)%nat ->
  (forall d, desc_parse Debug (tlv t b) = Ok d <-> reads b t d) /\
  (desc_parse Debug (tlv t b) = Panic <-> forall d, ~ reads b t d).
Proof. exact W_desc.parse_debug. Qed.
Print Assumptions C32_record_debug.
(** one record, without: aborts exactly where an inner length points outside *)
Theorem C32_record_release : forall t b, bytes b -> (length b < 256)%nat ->
  (desc_parse Release (tlv t b) = Panic <-> oob t b) /\ (~ oob t b -> exists d, desc_parse Release (tlv t b) = Ok d).
Proof. exact W_desc.parse_release. Qed.
Print Assumptions C32_record_release.
Lemma each_total m recs : recs_ok recs -> (forall t b, In (t, b) recs -> exists d, desc_parse m (tlv t b) = Ok d) ->
  exists ds, Forall2 (fun r d => desc_parse m (tlv (fst r) (snd r)) = Ok d) recs ds.
Proof.
  induction 1 as [|[t b] recs H F IH]; intros T; [exists []; constructor|].
  destruct (T t b ltac:(left; reflexivity)) as [d E]. destruct IH as [ds G]; [intros; apply T; right; assumption|].
  exists (d :: ds). constructor; assumption.
Qed.
(** loops *)
Theorem C32_loop : forall m recs tail old, recs_ok recs -> incomplete tail ->
  ((forall t b, In (t, b) recs -> exists d, desc_parse m (tlv t b) = Ok d) ->
    exists ds, descs_parse m old (loop_of recs ++ tail) = Ok (old ++ ds)) /\
  ((exists t b, In (t, b) recs /\ desc_parse m (tlv t b) = Panic) ->
    descs_parse m old (loop_of recs ++ tail) = Panic).
Proof.
  intros m recs tail old R I. split.
  - intros T. destruct (each_total m recs R T) as [ds G]. exists ds. apply C31_one_per_record; [assumption|assumption|]. eauto.
  - intros P. rewrite (W_desc.descs_parse_records m old recs tail (W_desc.records_len _ R) I). apply W_desc.parse_each_panic; assumption.
Qed.
Print Assumptions C32_loop.
(** the tags that can abort *)
Definition risky : list N := [0x43; 0x44; 0x48; 0x4D; 0x4E; 0x58; 0x5A].
Lemma safe_read t b : ~ In t risky -> exists d, reads b t d.
Proof.
  intros H. destruct (in_dec N.eq_dec t supported) as [I|I]; [|eexists; apply rRaw; assumption].
  cbn [In supported] in I. repeat destruct I as [<-|I]; try (exfalso; apply H; cbn; tauto); try contradiction.
  - destruct (Nat.leb_spec 4 (length b)); [eexists; apply r09; assumption|eexists; apply r09'; assumption].
  - destruct (Nat.eq_dec (length b mod 4) 0); [eexists; apply r0A; assumption|eexists; apply r0A'; assumption].
  - destruct (Nat.eq_dec (length b) 3); [eexists; apply r0E; assumption|eexists; apply r0E'; assumption].
  - eexists; apply r40.
  - destruct (Nat.eq_dec (length b mod 3) 0); [eexists; apply r41; assumption|eexists; apply r41'; assumption].
  - destruct (Nat.eq_dec (length b) 1); [eexists; apply r52; assumption|eexists; apply r52'; assumption].
  - destruct (Nat.eq_dec (length b mod 4) 0); [eexists; apply r83; assumption|eexists; apply r83'; assumption].
Qed.
Theorem C32_safe_tags : forall m recs tail old, recs_ok recs -> incomplete tail -> Forall (fun r => ~ In (fst r) risky) recs ->
  exists ds, descs_parse m old (loop_of recs ++ tail) = Ok (old ++ ds).
Proof.
  intros m recs tail old R I S. apply C32_loop; [assumption|assumption|]. intros t b H.
  unfold recs_ok in R. rewrite Forall_forall in R, S. destruct (R _ H) as (_ & H2 & H3). destruct (safe_read t b (S _ H)) as [d Hd].
  exists d. apply W_desc.parse_reads; assumption.
Qed.
Print Assumptions C32_safe_tags.
(** each of the other tags can: 0x48, 0x4D, 0x4E in every build *)
Theorem C32_never_aborts_refuted : forall t, In t risky -> exists b, bytes b /\ (length b < 256)%nat /\
  desc_parse Debug (tlv t b) = Panic /\ (In t [0x48; 0x4D; 0x4E] -> desc_parse Release (tlv t b) = Panic).
Proof.
  intros t H. cbn [In risky] in H. repeat destruct H as [<-|H]; try contradiction.
  - exists [0xA0; 0; 0; 0; 0; 0; 0; 0; 0; 0; 0]. split; [concrete|split; [concrete|split; [vm_compute; reflexivity|cbn; intuition discriminate]]].
  - exists [0x42; 0x94; 0x96; 0x73; 0; 0; 0; 0; 0; 0; 0]. split; [concrete|split; [concrete|split; [vm_compute; reflexivity|cbn; intuition discriminate]]].
  - exists [1; 1; 0]. split; [concrete|split; [concrete|split; [vm_compute; reflexivity|intros _; vm_compute; reflexivity]]].
  - exists [1; 1; 1; 1; 0]. split; [concrete|split; [concrete|split; [vm_compute; reflexivity|intros _; vm_compute; reflexivity]]].
  - exists [1; 1; 1; 1; 1; 0]. split; [concrete|split; [concrete|split; [vm_compute; reflexivity|intros _; vm_compute; reflexivity]]].
  - exists [1; 1; 1; 1; 5; 0; 0; 0; 0; 0; 0; 0; 0]. split; [concrete|split; [concrete|split; [vm_compute; reflexivity|cbn; intuition discriminate]]].
  - exists [0xFF; 0; 0; 0; 0; 0; 0; 0; 0; 0; 0]. split; [concrete|split; [concrete|split; [vm_compute; reflexivity|cbn; intuition discriminate]]].
Qed.
Print Assumptions C32_never_aborts_refuted.
Example C32_ex : descs_parse Release [] [0x52; 0; 0x41; 4; 1; 2; 3; 4; 0x40; 1; 0x11] =
  Ok [DRaw (mkRaw 0x52 []); DRaw (mkRaw 0x41 [1; 2; 3; 4]); D40 (mkDvb 0 [63])] /\
  descs_parse Release [] [0x52; 0; 0x48; 3; 1; 200; 1] = Panic /\ oob 0x48 [1; 200; 1].
Proof. split; [vm_compute; reflexivity|]. split; [vm_compute; reflexivity|]. left. split; [reflexivity|]. vm_compute. lia. Qed.

(** * C33 *)
Theorem C33_clone : forall d, (~ misfit d -> desc_clone d = Ok d) /\ (misfit d -> desc_clone d = Panic).
Proof. intros d. split; [apply W_desc.clone_ok|apply W_desc.clone_panic]. Qed.
Print Assumptions C33_clone.
Theorem C33_clone_loop : forall ds, Forall (fun d => ~ misfit d) ds -> descs_clone ds = Ok ds.
Proof. exact W_desc.descs_clone_ok. Qed.
Print Assumptions C33_clone_loop.
(** parsing produces such descriptors: any record of a supported tag whose length is wrong *)
Theorem C33_parse_then_clone_refuted : exists b d, desc_parse Debug b = Ok d /\ desc_clone d = Panic.
Proof. exists [0x52; 2; 1; 1], (DRaw (mkRaw 0x52 [1; 1])). split; vm_compute; reflexivity. Qed.
Print Assumptions C33_parse_then_clone_refuted.
Example C33_ex : desc_clone ex_43 = Ok ex_43 /\ ~ misfit (DRaw (mkRaw 0x90 [1])) /\ misfit (DRaw (mkRaw 0x52 [1; 1])).
Proof. split; [reflexivity|]. split; [cbn; intuition discriminate|cbn; tauto]. Qed.
