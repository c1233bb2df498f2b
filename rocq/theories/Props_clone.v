(** Property theorems C109: copies of events, comparison of texts and stream types. Specification:
    S_text (code pages); equality of the values themselves. *)
From Verif Require Import Prelude S_textdata S_text M_text S_desc M_desc M_tables M_clone.
From Verif Require W_desc Props_desc Props_text.

(** ** vocabulary of the statements *)
(** a raw descriptor under a tag that has a dedicated type *)
Definition misfit (d : desc) : Prop := match d with DRaw r => In (raw_tag r) supported | _ => False end.
(** Пр *)
Definition ex_cyr : list N := [0x41F; 0x440].
(** an event received with a stream identifier descriptor of two bytes *)
Definition ex_event : list N := [0; 7; 0xC0; 0x79; 0x12; 0x45; 0; 0; 0x30; 0; 0x80; 4; 0x52; 2; 1; 1].

Lemma misfit_dec d : misfit d \/ ~ misfit d.
Proof. destruct d; cbn [misfit]; try (right; tauto). match goal with |- In ?t _ \/ _ => destruct (in_dec N.eq_dec t supported) end; [left|right]; assumption. Qed.

Lemma descs_clone_panic ds : Exists misfit ds -> descs_clone ds = Panic.
Proof.
  induction ds as [|d ds IH]; intros H; [inversion H|]. cbn [descs_clone].
  destruct (misfit_dec d) as [D|D].
  - rewrite (proj2 (Props_desc.C33_clone d) D). reflexivity.
  - rewrite (proj1 (Props_desc.C33_clone d) D). cbn [bind]. inversion H as [? ? A|? ? A]; subst; [contradiction|].
    rewrite (IH A). reflexivity.
Qed.

(** * C109 *)
(** A copied list of descriptors is the list itself, unless a raw descriptor has the tag of a dedicated type: then the program panics. *)
Theorem C109_descriptors : forall ds,
  (Forall (fun d => ~ misfit d) ds -> descs_clone ds = Ok ds) /\ (Exists misfit ds -> descs_clone ds = Panic).
Proof. intros ds. split; [exact (Props_desc.C33_clone_loop ds)|apply descs_clone_panic]. Qed.
Print Assumptions C109_descriptors.
Theorem C109_event : forall i,
  (Forall (fun d => ~ misfit d) (eiti_descs i) -> eit_item_clone i = Ok i) /\ (Exists misfit (eiti_descs i) -> eit_item_clone i = Panic).
Proof.
  intros i. unfold eit_item_clone. destruct (C109_descriptors (eiti_descs i)) as [A B]. split; intros H.
  - rewrite (A H). destruct i; reflexivity.
  - rewrite (B H). reflexivity.
Qed.
Print Assumptions C109_event.
(** an event can be received that cannot be copied *)
Theorem C109_event_refuted : exists b i, eit_item_parse Debug b = Ok i /\ eit_item_clone i = Panic.
Proof. exists ex_event. eexists. split; vm_compute; reflexivity. Qed.
Print Assumptions C109_event_refuted.

Lemma vec_eq_iff : forall a b, vec_eq a b = true <-> a = b.
Proof.
  induction a as [|x a IH]; intros [|y b]; cbn [vec_eq]; split; try discriminate; try reflexivity.
  - intros H. apply andb_prop in H as [E H]. apply N.eqb_eq in E. apply IH in H. congruence.
  - intros H. inversion H; subst. rewrite N.eqb_refl. apply (proj2 (IH b) eq_refl).
Qed.
(** Comparison of texts is equality of code page and bytes. *)
Theorem C109_text : forall a b, dvb_eq a b = true <-> a = b.
Proof.
  intros [c x] [d y]. unfold dvb_eq. cbn [t_cp t_data]. rewrite andb_true_iff, N.eqb_eq, vec_eq_iff.
  split; [intros [-> ->]; reflexivity|intros H; inversion H; subst; split; reflexivity].
Qed.
Print Assumptions C109_text.

(** Texts made in one code page from characters of the page compare as the texts themselves. *)
Theorem C109_page : forall m cp page s1 s2 t1 t2, In (cp, page) pages -> Forall (representable page) s1 -> Forall (representable page) s2 ->
  dvb_from_str m s1 cp = Ok t1 -> dvb_from_str m s2 cp = Ok t2 -> (dvb_eq t1 t2 = true <-> s1 = s2).
Proof.
  intros m cp page s1 s2 t1 t2 P R1 R2 E1 E2. rewrite C109_text. split; [|intros ->; congruence]. intros ->.
  destruct (Props_text.C19_page_round_trip m s1 cp page P R1) as (u & U & _ & D1).
  destruct (Props_text.C19_page_round_trip m s2 cp page P R2) as (v & V & _ & D2). congruence.
Qed.
Print Assumptions C109_page.
Theorem C109_utf8 : forall m s1 s2 t1 t2, Forall is_char s1 -> Forall is_char s2 ->
  dvb_from_str m s1 21 = Ok t1 -> dvb_from_str m s2 21 = Ok t2 -> (dvb_eq t1 t2 = true <-> s1 = s2).
Proof.
  intros m s1 s2 t1 t2 R1 R2 E1 E2. rewrite C109_text. split; [|intros ->; congruence]. intros ->.
  destruct (Props_text.C19_utf8_round_trip m s1 R1) as (u & U & _ & D1).
  destruct (Props_text.C19_utf8_round_trip m s2 R2) as (v & V & _ & D2). congruence.
Qed.
Print Assumptions C109_utf8.
(** texts that read alike may differ, also within one code page; different texts of one code page may be equal *)
Theorem C109_display_refuted :
  (exists a b s, dvb_display a = Ok (Some s) /\ dvb_display b = Ok (Some s) /\ s <> [] /\ dvb_eq a b = false) /\
  (exists s1 s2 t1 t2, s1 <> s2 /\ dvb_from_str Debug s1 5 = Ok t1 /\ dvb_from_str Debug s2 5 = Ok t2 /\ dvb_eq t1 t2 = true).
Proof.
  split.
  - exists (mkDvb 5 [0x54; 0x56]), (mkDvb 21 [0x54; 0x56]), [0x54; 0x56]. repeat split; try (vm_compute; reflexivity). discriminate.
  - exists [0x201C; 0x41], [0x201D; 0x41]. do 2 eexists. split; [discriminate|]. split; [vm_compute; reflexivity|]. split; vm_compute; reflexivity.
Qed.
Print Assumptions C109_display_refuted.
(** Stream types compare as the variants themselves. *)
Theorem C109_stream_type : forall a b, stream_type_eq a b = true <-> a = b.
Proof. intros [] []; split; intros H; (reflexivity || discriminate). Qed.
Print Assumptions C109_stream_type.

Example C109_ex :
  (exists i, eit_item_parse Debug (firstn 12 ex_event ++ [0x52; 1; 9]) = Ok i /\ length (eiti_descs i) = 1%nat /\ eit_item_clone i = Ok i) /\
  Forall (representable iso8859_5) ex_cyr /\
  (exists t, dvb_from_str Debug ex_cyr 5 = Ok t /\ dvb_eq t (mkDvb 5 [0xbf; 0xe0]) = true /\ dvb_eq t (mkDvb 5 [0xbf]) = false) /\
  stream_type_eq AUDIO VIDEO = false.
Proof.
  split; [eexists; repeat split; vm_compute; reflexivity|]. split.
  - repeat (apply Forall_cons || apply Forall_nil); right; [exists 0xbf|exists 0xe0]; split; try lia; vm_compute; reflexivity.
  - split; [eexists; repeat split; vm_compute; reflexivity|reflexivity].
Qed.
