(** Property theorems C73: printing tables with [{:?}]. Specification: S_show. *)
From Coq Require Import String.
From Verif Require Import Prelude Layout S_textdata S_text M_text M_desc S_desc S_forward M_psi M_recv M_tables M_show S_show.
From Verif Require P_text P_show.
Local Open Scope string_scope.

(** ** vocabulary of the statements *)
(** printing [x] aborts exactly if one of its texts cannot be printed *)
Definition prints_if_texts_do {A} (show : A -> res tree) (texts : A -> list dvb) : Prop :=
  forall x, Forall byte_text (texts x) ->
    (show x = Panic <-> Exists (fun t => ~ printable t) (texts x)) /\
    ((exists v, show x = Ok v) <-> Forall printable (texts x)).
(** what is printed alike is alike: everything is the same but the bytes of texts that show the same characters *)
Definition hides_nothing {A} (show : A -> res tree) (texts : A -> list dvb) (replace : (dvb -> dvb) -> A -> A) : Prop :=
  forall x y v, Forall byte_text (texts x) -> Forall byte_text (texts y) -> show x = Ok v -> show y = Ok v ->
    replace seen x = replace seen y.

Lemma exists_not l : ~ Forall printable l <-> Exists (fun t => ~ printable t) l.
Proof.
  split.
  - intros H. apply Exists_exists. apply P_show.not_all. exact H.
  - intros H F. apply Exists_exists in H as (t & Ht & N). apply N. exact (proj1 (Forall_forall _ _) F t Ht).
Qed.
Lemma prints {A} (show : A -> res tree) texts : P_show.shows show texts -> prints_if_texts_do show texts.
Proof.
  intros H x Hb. rewrite <- exists_not. destruct (H x Hb) as [[P [v E]]|[P E]]; rewrite E.
  - split; split; intros K; [discriminate|contradiction|exact P|eexists; reflexivity].
  - split; split; intros K; [exact P|reflexivity|destruct K; discriminate|contradiction].
Qed.

(** * C73 *)
Theorem C73_text : prints_if_texts_do dvb_show (fun t => [t]).
Proof. exact (prints _ _ P_show.dvb_shows). Qed.
Print Assumptions C73_text.
Theorem C73_desc : prints_if_texts_do desc_show desc_texts.
Proof. exact (prints _ _ P_show.desc_shows). Qed.
Print Assumptions C73_desc.
Theorem C73_pmt : prints_if_texts_do pmt_show pmt_texts.
Proof. exact (prints _ _ P_show.pmt_shows). Qed.
Print Assumptions C73_pmt.
Theorem C73_nit : prints_if_texts_do nit_show nit_texts.
Proof. exact (prints _ _ P_show.nit_shows). Qed.
Print Assumptions C73_nit.
Theorem C73_sdt : prints_if_texts_do sdt_show sdt_texts.
Proof. exact (prints _ _ P_show.sdt_shows). Qed.
Print Assumptions C73_sdt.
Theorem C73_eit : prints_if_texts_do eit_show eit_texts.
Proof. exact (prints _ _ P_show.eit_shows). Qed.
Print Assumptions C73_eit.
Theorem C73_tot : prints_if_texts_do tot_show tot_texts.
Proof. exact (prints _ _ P_show.tot_shows). Qed.
Print Assumptions C73_tot.
(** tables without texts, and sections, are always printed, and completely *)
Theorem C73_plain :
  (forall t, exists v, pat_show t = Ok v) /\ (forall t, exists v, tdt_show t = Ok v) /\ (forall p, exists v, psi_show p = Ok v) /\
  (forall x y v, pat_show x = Ok v -> pat_show y = Ok v -> x = y) /\
  (forall x y v, tdt_show x = Ok v -> tdt_show y = Ok v -> x = y) /\
  (forall x y v, psi_show x = Ok v -> psi_show y = Ok v -> x = y).
Proof.
  split; [|split; [|split; [|split; [|split]]]].
  - intros t. destruct (P_show.pat_shows t (Forall_nil _)) as [[_ H]|[H _]]; [exact H|exfalso; apply H; constructor].
  - intros t. eexists. reflexivity.
  - intros t. eexists. reflexivity.
  - exact P_show.pat_tells.
  - intros x y v E F. unfold tdt_show in *. congruence.
  - exact P_show.psi_tells.
Qed.
Print Assumptions C73_plain.
Theorem C73_complete :
  hides_nothing dvb_show (fun t => [t]) (fun f => f) /\ hides_nothing desc_show desc_texts desc_map /\
  hides_nothing pmt_show pmt_texts pmt_map /\ hides_nothing nit_show nit_texts nit_map /\
  hides_nothing sdt_show sdt_texts sdt_map /\ hides_nothing eit_show eit_texts eit_map /\ hides_nothing tot_show tot_texts tot_map.
Proof.
  split; [exact P_show.dvb_tells|]. split; [exact P_show.desc_tells|]. split; [exact P_show.pmt_tells|]. split; [exact P_show.nit_tells|].
  split; [exact P_show.sdt_tells|]. split; [exact P_show.eit_tells|]. exact P_show.tot_tells.
Qed.
Print Assumptions C73_complete.
(** a received descriptor: printing aborts exactly if the selector of one of its texts is unknown *)
Theorem C73_received : forall b t d, bytes b -> reads b t d ->
  (desc_show d = Panic <-> exists w, text_in b t w /\ dark w) /\ (desc_show d <> Panic -> exists v, desc_show d = Ok v).
Proof. exact P_show.desc_dark. Qed.
Print Assumptions C73_received.
(** texts made here can be printed, also after truncation *)
Theorem C73_own_text : forall m s cp t, dvb_from_str m s cp = Ok t ->
  printable t /\ forall n u, dvb_truncate t n = Ok u -> printable u.
Proof.
  intros m s cp t E. assert (K : known_page (t_cp t)).
  { unfold dvb_from_str in E. change UTF8 with 21 in E. destruct (N.eqb_spec cp 21) as [->|]; [injection E as <-; left; reflexivity|].
    destruct (codepage_map cp) as [map|] eqn:M; [|injection E as <-; left; reflexivity].
    destruct (P_text.pages_good cp) as [[E1 _]|(map' & page & _ & E2 & _)]; [congruence|]. apply P_text.page_in in E2.
    destruct (encode_loop m map s) as [d| |]; cbn [bind] in E; try discriminate. injection E as <-. right.
    apply (in_map fst) in E2. exact E2. }
  split; [right; exact K|]. intros n u. unfold dvb_truncate. destruct (n <? length (t_data t))%nat; [|intros [= <-]; right; exact K].
  intros F. right. repeat match type of F with bind ?r _ = _ => destruct r; cbn [bind] in F; try discriminate end. injection F as <-. exact K.
Qed.
Print Assumptions C73_own_text.

(** a service named "A" in the code page of selector 8 (reserved in EN 300 468) *)
Definition dark_sdt : sdt := mkSdt 0x42 1 2 3 [mkSdtI 4 0 0 4 0 [D48 (mk48 1 (mkDvb 0 [66]) (mkDvb 12 [65]))]].
(** the packets of the table arrive, the table is read, and cannot be printed *)
Theorem C73_received_refuted : exists cc packet q t,
  sdt_demux Release dark_sdt 17 0 [] = Ok (cc, packet) /\ length packet = 188%nat /\
  receive Debug (sdt_parse Debug) psi_default sdt_default [packet] = Ok (q, t) /\ t = dark_sdt /\ sdt_show t = Panic.
Proof.
  eexists. eexists. eexists. eexists. split; [vm_compute; reflexivity|]. split; [vm_compute; reflexivity|].
  split; [vm_compute; reflexivity|]. split; vm_compute; reflexivity.
Qed.
Print Assumptions C73_received_refuted.

Definition shown_tot : tot := mkTot 5 [D58 [mk58i (mkDvb 0 [102; 105; 110]) 0 0 120 9 180]; D52 7; DRaw (mkRaw 0xF0 [1; 2]); D40 (mkDvb 5 [0xB0; 0x41])].
Example C73_ex : tot_show shown_tot = Ok (SStruct "Tot" [("time", SNum 5); ("descriptors", SList
  [SStruct "Desc58" [("items", SList [SStruct "Desc58i"
     [("country_code", SStruct "StringDVB" [("codepage", SNum 0); ("text", SText [102; 105; 110])]); ("region_id", SNum 0);
      ("offset_polarity", SNum 0); ("offset", SNum 120); ("time_of_change", SNum 9); ("next_offset", SNum 180)]])];
   SStruct "Desc52" [("tag", SNum 7)];
   SStruct "DescRaw" [("tag", SNum 0xF0); ("data", SList [SNum 1; SNum 2])];
   SStruct "Desc40" [("name", SStruct "StringDVB" [("codepage", SNum 5); ("text", SText [0x410; 0x41])])]])]) /\
  Forall byte_text (tot_texts shown_tot) /\ Forall printable (tot_texts shown_tot) /\
  (** two texts that print alike *)
  seen (mkDvb 5 [0x85; 0x41]) = seen (mkDvb 5 [0x41]) /\
  (** received names with the selector 8, with selector 8 alone, and with 0x10 0 18 *)
  text_in [8; 65] 0x40 [8; 65] /\ dark [8; 65] /\ ~ dark [8] /\ dark [0x10; 0; 18; 65] /\ ~ dark [0x10; 0; 5; 65].
Proof.
  split; [vm_compute; reflexivity|]. split; [repeat constructor|].
  split. { repeat apply Forall_cons; try apply Forall_nil; right; right; cbn; tauto. }
  split; [vm_compute; reflexivity|]. split; [constructor|].
  split; [exists 8, [65]; split; [discriminate|]; left; split; [reflexivity|left; reflexivity]|].
  split. { intros (c & d & H & [[E _]|[x [E _]]]); [injection E as <- <-; congruence|discriminate]. }
  split. { exists 18, [65]. split; [discriminate|]. right. exists 0. split; [reflexivity|]. intros [H|H]; [discriminate|]. cbn in H. intuition discriminate. }
  intros (c & d & H & [[E K]|[x [E K]]]); [injection E as <- <-; lia|]. injection E as <- <- <-. apply K. right. cbn. tauto.
Qed.
