(** Property theorems C82: the characters written for tables with [{:?}] and [{:#?}].
    Specification: S_layout (layout), S_show (what texts show). [higher] stands for the tables
    of Unicode properties in core; the theorems hold for all of them. *)
From Coq Require Import String.
From Verif Require Import Prelude Layout S_text M_text M_desc S_desc M_psi M_tables M_debug M_show S_show M_layout S_layout.
From Verif Require P_show P_layout P_layout2.
Local Open Scope string_scope.
Local Open Scope N_scope.

(** ** vocabulary of the statements *)
(** what is written alike is alike *)
Definition text_tells {A} (show : A -> res tree) (texts : A -> list dvb) (replace : (dvb -> dvb) -> A -> A) : Prop :=
  forall higher alt x y s, Forall byte_text (texts x) -> Forall byte_text (texts y) ->
    format_debug higher alt show x = Ok s -> format_debug higher alt show y = Ok s -> replace seen x = replace seen y.
(** [{:?}] writes one line of harmless characters *)
Definition one_line {A} (show : A -> res tree) : Prop :=
  forall higher x s, format_debug higher false show x = Ok s -> Forall (harmless higher) s.
(** [{:#?}] writes the view in lines indented by their depth, with harmless characters and line ends *)
Definition in_lines {A} (show : A -> res tree) : Prop :=
  forall higher x s, format_debug higher true show x = Ok s ->
    (exists v, show x = Ok v /\ s = lay higher true 0 v) /\ Forall (fun c => harmless higher c \/ c = 10) s.

Lemma tells {A} (show : A -> res tree) texts mp : P_layout2.well show -> P_show.tells show texts (mp seen) -> text_tells show texts mp.
Proof.
  intros W T higher alt x y s Hx Hy E1 E2. destruct (P_layout2.format_same show show higher alt x y s W W E1 E2) as (v & F1 & F2).
  exact (T x y v Hx Hy F1 F2).
Qed.
Lemma line {A} (show : A -> res tree) : P_layout2.well show -> one_line show.
Proof.
  intros W higher x s E. destruct (P_layout2.format_lay show higher false x s W E) as (v & _ & _ & F).
  eapply Forall_impl; [|exact F]. intros c [H|[H _]]; [exact H|discriminate].
Qed.
Lemma lines {A} (show : A -> res tree) : P_layout2.well show -> in_lines show.
Proof.
  intros W higher x s E. destruct (P_layout2.format_lay show higher true x s W E) as (v & E1 & E2 & F).
  split; [exists v; auto|]. eapply Forall_impl; [|exact F]. intros c [H|[_ H]]; auto.
Qed.

(** * C82 *)
Theorem C82_tells :
  text_tells dvb_show (fun t => [t]) (fun f => f) /\ text_tells desc_show desc_texts desc_map /\
  text_tells pmt_show pmt_texts pmt_map /\ text_tells nit_show nit_texts nit_map /\
  text_tells sdt_show sdt_texts sdt_map /\ text_tells eit_show eit_texts eit_map /\ text_tells tot_show tot_texts tot_map.
Proof.
  split; [exact (tells dvb_show (fun t => [t]) (fun f => f) P_layout2.dvb_well P_show.dvb_tells)|].
  split; [exact (tells _ _ _ P_layout2.desc_well P_show.desc_tells)|]. split; [exact (tells _ _ _ P_layout2.pmt_well P_show.pmt_tells)|].
  split; [exact (tells _ _ _ P_layout2.nit_well P_show.nit_tells)|]. split; [exact (tells _ _ _ P_layout2.sdt_well P_show.sdt_tells)|].
  split; [exact (tells _ _ _ P_layout2.eit_well P_show.eit_tells)|exact (tells _ _ _ P_layout2.tot_well P_show.tot_tells)].
Qed.
Print Assumptions C82_tells.
(** the same without texts, and for sections: what is written alike is the same *)
Theorem C82_tells_plain : forall higher alt s,
  (forall x y, format_debug higher alt pat_show x = Ok s -> format_debug higher alt pat_show y = Ok s -> x = y) /\
  (forall x y, format_debug higher alt tdt_show x = Ok s -> format_debug higher alt tdt_show y = Ok s -> x = y) /\
  (forall x y, format_debug higher alt psi_show x = Ok s -> format_debug higher alt psi_show y = Ok s -> x = y).
Proof.
  intros higher alt s. split; [|split]; intros x y E1 E2.
  - destruct (P_layout2.format_same _ _ _ _ _ _ _ P_layout2.pat_well P_layout2.pat_well E1 E2) as (v & F1 & F2). exact (P_show.pat_tells x y v F1 F2).
  - destruct (P_layout2.format_same _ _ _ _ _ _ _ P_layout2.tdt_well P_layout2.tdt_well E1 E2) as (v & F1 & F2). unfold tdt_show in *. congruence.
  - destruct (P_layout2.format_same _ _ _ _ _ _ _ P_layout2.psi_well P_layout2.psi_well E1 E2) as (v & F1 & F2). exact (P_show.psi_tells x y v F1 F2).
Qed.
Print Assumptions C82_tells_plain.
(** nothing received can break a line of a log or send control characters to a terminal *)
Theorem C82_one_line :
  one_line dvb_show /\ one_line desc_show /\ one_line pat_show /\ one_line pmt_show /\ one_line nit_show /\ one_line sdt_show /\
  one_line eit_show /\ one_line tdt_show /\ one_line tot_show /\ one_line psi_show.
Proof.
  split; [exact (line _ P_layout2.dvb_well)|]. split; [exact (line _ P_layout2.desc_well)|]. split; [exact (line _ P_layout2.pat_well)|].
  split; [exact (line _ P_layout2.pmt_well)|]. split; [exact (line _ P_layout2.nit_well)|]. split; [exact (line _ P_layout2.sdt_well)|].
  split; [exact (line _ P_layout2.eit_well)|]. split; [exact (line _ P_layout2.tdt_well)|]. split; [exact (line _ P_layout2.tot_well)|exact (line _ P_layout2.psi_well)].
Qed.
Print Assumptions C82_one_line.
Theorem C82_lines :
  in_lines dvb_show /\ in_lines desc_show /\ in_lines pat_show /\ in_lines pmt_show /\ in_lines nit_show /\ in_lines sdt_show /\
  in_lines eit_show /\ in_lines tdt_show /\ in_lines tot_show /\ in_lines psi_show.
Proof.
  split; [exact (lines _ P_layout2.dvb_well)|]. split; [exact (lines _ P_layout2.desc_well)|]. split; [exact (lines _ P_layout2.pat_well)|].
  split; [exact (lines _ P_layout2.pmt_well)|]. split; [exact (lines _ P_layout2.nit_well)|]. split; [exact (lines _ P_layout2.sdt_well)|].
  split; [exact (lines _ P_layout2.eit_well)|]. split; [exact (lines _ P_layout2.tdt_well)|]. split; [exact (lines _ P_layout2.tot_well)|exact (lines _ P_layout2.psi_well)].
Qed.
Print Assumptions C82_lines.

(** Texts of ASCII characters without quotes and backslashes can be read as they are, whatever the tables of Unicode say of other characters. *)
Theorem C82_readable : forall higher t s, dvb_to_string t = Ok s -> Forall (fun c => 32 <= c <= 126 /\ c <> 34 /\ c <> 92) s ->
  format_debug higher false dvb_show t = Ok (codes "StringDVB { codepage: " ++ codes (dec (t_cp t)) ++ codes ", text: """ ++ s ++ codes """ }")%list.
Proof.
  intros higher t s E F. unfold format_debug, dvb_show. rewrite E. cbn [bind].
  assert (T : flat_map (escape higher) s = s).
  { clear E. induction F as [|c s (R & Q & B) _ IH]; [reflexivity|]. cbn [flat_map]. rewrite IH. unfold escape, shows_itself.
    destruct (N.eqb_spec c 0); [lia|]. destruct (N.eqb_spec c 9); [lia|]. destruct (N.eqb_spec c 13); [lia|]. destruct (N.eqb_spec c 10); [lia|].
    destruct (N.eqb_spec c 34); [lia|]. destruct (N.eqb_spec c 92); [lia|]. cbn [orb]. destruct (N.ltb_spec c 32); [lia|]. destruct (N.ltb_spec c 127); [reflexivity|lia]. }
  f_equal. cbn [written]. unfold text_chars. rewrite T. unfold struct_field. cbn. rewrite ?app_nil_r, <- ?app_assoc. reflexivity.
Qed.
Print Assumptions C82_readable.

(** a service whose name holds a quote, a line end, an escape and an e with acute *)
Definition odd_sdt : sdt := mkSdt 0x42 1 2 3 [mkSdtI 4 0 1 4 0 [D48 (mk48 1 (mkDvb 0 []) (mkDvb 21 [65; 34; 10; 27; 0xC3; 0xA9]))]].
Definition latin (c : N) : bool := (161 <=? c) && (c <? 256).
Example C82_ex :
  format_debug latin false sdt_show odd_sdt = Ok (codes
    "Sdt { table_id: 66, version: 1, tsid: 2, onid: 3, items: [SdtItem { pnr: 4, eit_schedule_flag: 0, eit_present_following_flag: 1, running_status: 4, free_ca_mode: 0, descriptors: [Desc48 { service_type: 1, provider: StringDVB { codepage: 0, text: """" }, name: StringDVB { codepage: 21, text: ""A\""\n\u{1b}" ++ [233] ++
    codes """ } }] }] }")%list /\
  format_debug latin true pat_show (mkPat 1 2 [mkPatI 3 4]) = Ok (codes "Pat {" ++ [10] ++ codes "    version: 1," ++ [10] ++
    codes "    tsid: 2," ++ [10] ++ codes "    items: [" ++ [10] ++ codes "        PatItem {" ++ [10] ++ codes "            pnr: 3," ++ [10] ++
    codes "            pid: 4," ++ [10] ++ codes "        }," ++ [10] ++ codes "    ]," ++ [10] ++ codes "}")%list /\
  format_debug latin false psi_show psi_default = Ok (codes "Psi { buffer: [], size: 0, pid: 0, cc: 0 }") /\
  (** [{}] does not escape: the text of the service has the line end and the escape *)
  dvb_to_string (mkDvb 21 [65; 34; 10; 27; 0xC3; 0xA9]) = Ok [65; 34; 10; 27; 233].
Proof. split; [vm_compute; reflexivity|]. split; [vm_compute; reflexivity|]. split; vm_compute; reflexivity. Qed.
(** the names and the order of the fields of every other kind *)
Example C82_names :
  format_debug latin false desc_show (D09 (mk09 1 2 [3; 4])) = Ok (codes
    "Desc09 { caid: 1, pid: 2, data: [3, 4] }") /\
  format_debug latin false desc_show (D0A [(mk0Ai (mkDvb 0 [101; 110; 103]) 5)]) = Ok (codes
    "Desc0A { items: [Desc0Ai { code: StringDVB { codepage: 0, text: ""eng"" }, audio_type: 5 }] }") /\
  format_debug latin false desc_show (D0E (mk0E 6)) = Ok (codes
    "Desc0E { bitrate: 6 }") /\
  format_debug latin false desc_show (D40 (mkDvb 0 [110; 101; 116])) = Ok (codes
    "Desc40 { name: StringDVB { codepage: 0, text: ""net"" } }") /\
  format_debug latin false desc_show (D41 [(mk41i 7 8); (mk41i 9 10)]) = Ok (codes
    "Desc41 { items: [Desc41i { service_id: 7, service_type: 8 }, Desc41i { service_id: 9, service_type: 10 }] }") /\
  format_debug latin false desc_show (D43 (mk43 11 12 13 14 15 16 17 18 19)) = Ok (codes
    "Desc43 { frequency: 11, orbital_position: 12, west_east_flag: 13, polarization: 14, rof: 15, s2: 16, modulation: 17, symbol_rate: 18, fec: 19 }") /\
  format_debug latin false desc_show (D44 (mk44 20 21 22 23 24)) = Ok (codes
    "Desc44 { frequency: 20, fec_outer: 21, modulation: 22, symbol_rate: 23, fec: 24 }") /\
  format_debug latin false desc_show (D48 (mk48 25 (mkDvb 0 [112]) (mkDvb 0 [110]))) = Ok (codes
    "Desc48 { service_type: 25, provider: StringDVB { codepage: 0, text: ""p"" }, name: StringDVB { codepage: 0, text: ""n"" } }") /\
  format_debug latin false desc_show (D4D (mk4D (mkDvb 0 [102; 105; 110]) (mkDvb 0 [110]) (mkDvb 0 [116]))) = Ok (codes
    "Desc4D { lang: StringDVB { codepage: 0, text: ""fin"" }, name: StringDVB { codepage: 0, text: ""n"" }, text: StringDVB { codepage: 0, text: ""t"" } }") /\
  format_debug latin false desc_show (D4E (mk4E 26 27 (mkDvb 0 [101; 115; 116]) [((mkDvb 0 [97]), (mkDvb 0 [98]))] (mkDvb 0 [116]))) = Ok (codes
    "Desc4E { number: 26, last_number: 27, lang: StringDVB { codepage: 0, text: ""est"" }, items: [(StringDVB { codepage: 0, text: ""a"" }, StringDVB { codepage: 0, text: ""b"" })], text: StringDVB { codepage: 0, text: ""t"" } }") /\
  format_debug latin false desc_show (D52 28) = Ok (codes
    "Desc52 { tag: 28 }") /\
  format_debug latin false desc_show (D58 [(mk58i (mkDvb 0 [115; 118; 107]) 29 30 31 32 33)]) = Ok (codes
    "Desc58 { items: [Desc58i { country_code: StringDVB { codepage: 0, text: ""svk"" }, region_id: 29, offset_polarity: 30, offset: 31, time_of_change: 32, next_offset: 33 }] }") /\
  format_debug latin false desc_show (D5A (mk5A 34 35 36 37 38 39 40 41 42 43 44 45)) = Ok (codes
    "Desc5A { frequency: 34, bandwidth: 35, priority: 36, time_slicing: 37, mpe_fec: 38, modulation: 39, hierarchy: 40, code_rate_hp: 41, code_rate_lp: 42, guard_interval: 43, transmission: 44, other_frequency_flag: 45 }") /\
  format_debug latin false desc_show (D83 [(mk83i 46 47 48)]) = Ok (codes
    "Desc83 { items: [Desc83i { service_id: 46, visible: 47, lcn: 48 }] }") /\
  format_debug latin false desc_show (DRaw (mkRaw 49 [50; 51])) = Ok (codes
    "DescRaw { tag: 49, data: [50, 51] }") /\
  format_debug latin false pmt_show (mkPmt 52 53 54 [(D52 55)] [(mkPmtI 56 57 [(D52 58)])]) = Ok (codes
    "Pmt { version: 52, pnr: 53, pcr: 54, descriptors: [Desc52 { tag: 55 }], items: [PmtItem { stream_type: 56, pid: 57, descriptors: [Desc52 { tag: 58 }] }] }") /\
  format_debug latin false nit_show (mkNit 59 60 61 [(D52 62)] [(mkNitI 63 64 [(D52 65)])]) = Ok (codes
    "Nit { table_id: 59, version: 60, network_id: 61, descriptors: [Desc52 { tag: 62 }], items: [NitItem { tsid: 63, onid: 64, descriptors: [Desc52 { tag: 65 }] }] }") /\
  format_debug latin false eit_show (mkEit 66 67 68 69 70 [(mkEitI 71 72 73 74 75 [(D52 76)])]) = Ok (codes
    "Eit { table_id: 66, version: 67, pnr: 68, tsid: 69, onid: 70, items: [EitItem { event_id: 71, start: 72, duration: 73, status: 74, ca_mode: 75, descriptors: [Desc52 { tag: 76 }] }] }") /\
  format_debug latin false tot_show (mkTot 77 [(D52 78)]) = Ok (codes
    "Tot { time: 77, descriptors: [Desc52 { tag: 78 }] }") /\
  format_debug latin false tdt_show 79 = Ok (codes
    "Tdt { time: 79 }").
Proof. repeat match goal with |- _ /\ _ => split end; vm_compute; reflexivity. Qed.
