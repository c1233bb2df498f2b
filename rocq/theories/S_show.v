(** Specification of printing tables for diagnosis: the texts in a table, which of them can be
    printed, and what a reader of the output can tell apart. *)
From Verif Require Import Prelude Layout S_textdata S_text M_text M_desc S_desc S_forward M_tables.

(** texts of no bytes, of a code page with a table, or in UTF-8 *)
Definition known_page (cp : N) : Prop := cp = 21 \/ In cp (map fst pages).
Definition printable (t : dvb) : Prop := t_data t = [] \/ known_page (t_cp t).

(** the texts in descriptors and tables *)
Definition desc_texts (d : desc) : list dvb :=
  match d with
  | D0A l => map d0A_code l
  | D40 t => [t]
  | D48 x => [d48_provider x; d48_name x]
  | D4D x => [d4D_lang x; d4D_name x; d4D_text x]
  | D4E x => d4E_lang x :: flat_map (fun p => [fst p; snd p]) (d4E_items x) ++ [d4E_text x]
  | D58 l => map d58_code l
  | _ => []
  end.
Definition texts_of (l : list desc) : list dvb := flat_map desc_texts l.
Definition pmt_texts (t : pmt) : list dvb := texts_of (pmt_descs t) ++ flat_map (fun i => texts_of (pmti_descs i)) (pmt_items t).
Definition nit_texts (t : nit) : list dvb := texts_of (nit_descs t) ++ flat_map (fun i => texts_of (niti_descs i)) (nit_items t).
Definition sdt_texts (t : sdt) : list dvb := flat_map (fun i => texts_of (sdti_descs i)) (sdt_items t).
Definition eit_texts (t : eit) : list dvb := flat_map (fun i => texts_of (eiti_descs i)) (eit_items t).
Definition tot_texts (t : tot) : list dvb := texts_of (tot_descs t).
(** the data of a StringDVB is a Vec<u8> *)
Definition byte_text (t : dvb) : Prop := bytes (t_data t).

(** descriptors and tables with every text replaced *)
Definition desc_map (f : dvb -> dvb) (d : desc) : desc :=
  match d with
  | D0A l => D0A (map (fun i => mk0Ai (f (d0A_code i)) (d0A_type i)) l)
  | D40 t => D40 (f t)
  | D48 x => D48 (mk48 (d48_type x) (f (d48_provider x)) (f (d48_name x)))
  | D4D x => D4D (mk4D (f (d4D_lang x)) (f (d4D_name x)) (f (d4D_text x)))
  | D4E x => D4E (mk4E (d4E_num x) (d4E_last x) (f (d4E_lang x)) (map (fun p => (f (fst p), f (snd p))) (d4E_items x)) (f (d4E_text x)))
  | D58 l => D58 (map (fun i => mk58i (f (d58_code i)) (d58_region i) (d58_pol i) (d58_offset i) (d58_time i) (d58_next i)) l)
  | _ => d
  end.
Definition descs_map (f : dvb -> dvb) : list desc -> list desc := map (desc_map f).
Definition pmt_map f (t : pmt) : pmt :=
  mkPmt (pmt_version t) (pmt_pnr t) (pmt_pcr t) (descs_map f (pmt_descs t))
    (map (fun i => mkPmtI (pmti_type i) (pmti_pid i) (descs_map f (pmti_descs i))) (pmt_items t)).
Definition nit_map f (t : nit) : nit :=
  mkNit (nit_table t) (nit_version t) (nit_network t) (descs_map f (nit_descs t))
    (map (fun i => mkNitI (niti_tsid i) (niti_onid i) (descs_map f (niti_descs i))) (nit_items t)).
Definition sdt_map f (t : sdt) : sdt :=
  mkSdt (sdt_table t) (sdt_version t) (sdt_tsid t) (sdt_onid t)
    (map (fun i => mkSdtI (sdti_pnr i) (sdti_sched i) (sdti_pf i) (sdti_status i) (sdti_ca i) (descs_map f (sdti_descs i))) (sdt_items t)).
Definition eit_map f (t : eit) : eit :=
  mkEit (eit_table t) (eit_version t) (eit_pnr t) (eit_tsid t) (eit_onid t)
    (map (fun i => mkEitI (eiti_id i) (eiti_start i) (eiti_duration i) (eiti_status i) (eiti_ca i) (descs_map f (eiti_descs i))) (eit_items t)).
Definition tot_map f (t : tot) : tot := mkTot (tot_time t) (descs_map f (tot_descs t)).

(** the page and the characters of a text *)
Definition page_of (cp : N) : option (list (N * N * N)) :=
  option_map snd (find (fun p => fst p =? cp) pages).
Definition chars (t : dvb) : list N :=
  if t_cp t =? 21 then lossy (t_data t)
  else match page_of (t_cp t) with Some page => flat_map (shown page) (t_data t) | None => [] end.
Definition seen (t : dvb) : dvb := mkDvb (t_cp t) (chars t).

(** wire bytes of a text in a code page that is not known: the selector is followed by text *)
Definition dark (w : list N) : Prop :=
  exists c d, d <> [] /\ ((w = c :: d /\ (c = 8 \/ 12 <= c <= 15)) \/ (exists x, w = 0x10 :: x :: c :: d /\ ~ known_page c)).

(** the texts of the items of an extended event, cf. [items_read] *)
Inductive item_text : nat -> list N -> list N -> Prop :=
| item_name n x y l : (0 < n)%nat -> item_text n ((N.of_nat (length x) :: x) ++ (N.of_nat (length y) :: y) ++ l) x
| item_value n x y l : (0 < n)%nat -> item_text n ((N.of_nat (length x) :: x) ++ (N.of_nat (length y) :: y) ++ l) y
| item_later n x y l w : (0 < n)%nat -> item_text (n - (2 + length x + length y)) l w ->
    item_text n ((N.of_nat (length x) :: x) ++ (N.of_nat (length y) :: y) ++ l) w.
(** [text_in b tag w]: [w] are the wire bytes of a text in a descriptor with this tag and body *)
Inductive text_in (b : list N) : N -> list N -> Prop :=
| in_0A g : (length b mod 4 = 0)%nat -> In g (all_groups 4 b) -> text_in b 0x0A (firstn 3 g)
| in_40 : text_in b 0x40 b
| in_48 i : (3 <= length b)%nat -> (length b = 3 + len_at b 1 + len_at b (2 + len_at b 1))%nat ->
    i = 1%nat \/ i = (2 + len_at b 1)%nat -> text_in b 0x48 (wire_at b i)
| in_4D_lang : (5 <= length b)%nat -> (length b = 5 + len_at b 3 + len_at b (4 + len_at b 3))%nat -> text_in b 0x4D (firstn 3 b)
| in_4D i : (5 <= length b)%nat -> (length b = 5 + len_at b 3 + len_at b (4 + len_at b 3))%nat ->
    i = 3%nat \/ i = (4 + len_at b 3)%nat -> text_in b 0x4D (wire_at b i)
| in_4E_lang : (6 <= length b)%nat -> (length b = 6 + len_at b 4 + len_at b (5 + len_at b 4))%nat -> text_in b 0x4E (firstn 3 (skipn 1 b))
| in_4E_item w : (6 <= length b)%nat -> (length b = 6 + len_at b 4 + len_at b (5 + len_at b 4))%nat ->
    item_text (len_at b 4) (skipn 5 b) w -> text_in b 0x4E w
| in_4E : (6 <= length b)%nat -> (length b = 6 + len_at b 4 + len_at b (5 + len_at b 4))%nat -> text_in b 0x4E (wire_at b (5 + len_at b 4))
| in_58 g : (length b mod 13 = 0)%nat -> In g (all_groups 13 b) -> text_in b 0x58 (firstn 3 g).
