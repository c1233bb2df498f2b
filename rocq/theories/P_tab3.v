(** Proofs about assembling tables (M_tables against S_tables). *)
From Verif Require Import Prelude Layout Facts Facts2 S_ts S_crc S_utils S_psi M_bytes M_ts M_crc M_utils M_psi M_drive M_recv M_desc S_desc
  M_tables S_tables P_bytes P_crc P_utils P_psi P_mux P_mux2 P_sect P_mux3 P_desc P_desc2 P_desc3 W_psi W_desc P_tab P_tab2.

Lemma wire_assemble m ds b : Forall desc_ok ds -> descs_assemble m ds b = Ok (b ++ wire ds, length (wire ds)).
Proof. apply descs_assemble_ok. Qed.
Lemma wire_bytes ds : Forall desc_ok ds -> bytes (wire ds).
Proof.
  intros F. apply flat_bytes. apply Forall_map. eapply Forall_impl; [|exact F]. intros d Hd. cbn [fst snd].
  pose proof Hd as (_ & L & _). apply tlv_bytes; [|assumption|apply body_bytes; assumption].
  destruct Hd as (Hf & _). destruct d; cbn [desc_tag]; try reflexivity. cbn [fields_ok] in Hf. tauto.
Qed.

Lemma pat_item_spec i b : pat_item_ok i -> pat_item_assemble i b = Ok (b ++ pat_entry i).
Proof.
  intros [H1 H2]. unfold pat_item_assemble. rewrite resize_app. writes. unfold pat_entry. lay. bytes_are.
Qed.

Lemma pmt_item_spec m i b : pmt_item_ok i -> pmt_item_assemble m i b = Ok (b ++ pmt_entry i) /\ pmt_item_size i = length (pmt_entry i).
Proof.
  intros (H1 & H2 & H3 & H4). split.
  - unfold pmt_item_assemble. rewrite resize_app. writes. rewrite wire_assemble by assumption. cbn [bind]. unfold pmt_entry, wlen.
    rewrite <- app_assoc. set (w := wire (pmti_descs i)) in *. assert (Hl : N.of_nat (length w) < 4096) by lia.
    generalize dependent (N.of_nat (length w)). intros n Hn. clear H4. clearbody w.
    rewrite set_u16_at_app. lazymatch goal with |- bind ?e _ = _ => run_write e end. lay. cbn [app]. bytes_are.
  - unfold pmt_item_size, pmt_entry. rewrite descs_size_ok by assumption. rewrite app_length, layout_length by reflexivity. reflexivity.
Qed.

Lemma nit_item_spec m i b : nit_item_ok i -> nit_item_assemble m i b = Ok (b ++ nit_entry i) /\ nit_item_size i = length (nit_entry i).
Proof.
  intros (H1 & H2 & H3 & H4). split.
  - unfold nit_item_assemble. rewrite resize_app. writes. rewrite wire_assemble by assumption. cbn [bind]. unfold nit_entry, wlen.
    rewrite <- app_assoc. set (w := wire (niti_descs i)) in *. assert (Hl : N.of_nat (length w) < 4096) by lia.
    generalize dependent (N.of_nat (length w)). intros n Hn. clear H4. clearbody w.
    rewrite set_u16_at_app. lazymatch goal with |- bind ?e _ = _ => run_write e end. lay. cbn [app]. bytes_are.
  - unfold nit_item_size, nit_entry. rewrite descs_size_ok by assumption. rewrite app_length, layout_length by reflexivity. reflexivity.
Qed.

Lemma sdt_item_spec m i b : sdt_item_ok i -> sdt_item_assemble m i b = Ok (b ++ sdt_entry i) /\ sdt_item_size i = length (sdt_entry i).
Proof.
  intros (H1 & H2 & H3 & H5 & H6 & H7 & H4). split.
  - unfold sdt_item_assemble. rewrite resize_app. writes. rewrite wire_assemble by assumption. cbn [bind]. unfold sdt_entry, wlen.
    rewrite <- app_assoc. set (w := wire (sdti_descs i)) in *. assert (Hl : N.of_nat (length w) < 4096) by lia.
    generalize dependent (N.of_nat (length w)). intros n Hn. clear H4. clearbody w.
    rewrite set_u16_at_app. lazymatch goal with |- bind ?e _ = _ => run_write e end. lay. cbn [app]. bytes_are.
  - unfold sdt_item_size, sdt_entry. rewrite descs_size_ok by assumption. rewrite app_length, layout_length by reflexivity. reflexivity.
Qed.

Lemma day_mjd m t : t < MJD_END -> to_mjd m t = Ok (day t) /\ day t < 65536.
Proof.
  unfold MJD_END, day, MJD_EPOCH. intros H. rewrite to_mjd_spec by (unfold U64; lia). split; [f_equal|]; dlia.
Qed.
Lemma clock_bcd m t : t < MJD_END -> u32_to_bcd_time m (cast U32 t) = Ok (clock t).
Proof.
  unfold MJD_END. intros H. unfold cast, U32. rewrite N.mod_small by lia. apply u32_to_bcd_time_spec. lia.
Qed.
Lemma clock_dur m t : t < 86400 -> u32_to_bcd_time m t = Ok (clock t).
Proof. intros H. apply u32_to_bcd_time_spec. lia. Qed.
Lemma set_u24_at_app0 b t v : set_u24_at (b ++ t) (length b) v = (t' <- set_u24_at t 0 v ;; Ok (b ++ t')).
Proof. rewrite <- (set_u24_at_app b t 0 v), Nat.add_0_r. reflexivity. Qed.

Lemma eit_item_spec m i b : eit_item_ok i -> eit_item_assemble m i b = Ok (b ++ eit_entry i) /\ eit_item_size i = length (eit_entry i).
Proof.
  intros (H1 & H2 & H3 & H5 & H6 & H7 & H4). split.
  - unfold eit_item_assemble. rewrite resize_app.
    destruct (day_mjd m _ H2) as [-> Hd]. rewrite (clock_bcd m _ H2), (clock_dur m _ H3). cbn [bind].
    unfold eit_entry. pose proof (hms_lt (eiti_start i / 3600 mod 24) (eiti_start i / 60 mod 60) (eiti_start i mod 60)) as Hc.
    pose proof (hms_lt (eiti_duration i / 3600 mod 24) (eiti_duration i / 60 mod 60) (eiti_duration i mod 60)) as Hu.
    fold (clock (eiti_start i)) in Hc. fold (clock (eiti_duration i)) in Hu. unfold wlen.
    set (w := wire (eiti_descs i)) in *. assert (Hl : N.of_nat (length w) < 4096) by lia.
    generalize dependent (clock (eiti_start i)). generalize dependent (clock (eiti_duration i)). generalize dependent (day (eiti_start i)).
    intros d Hd c Hc u Hu.
    writes. rewrite wire_assemble by assumption. fold w. cbn [bind].
    rewrite <- app_assoc. 
    generalize dependent (N.of_nat (length w)). intros n Hn. clear H4. clearbody w.
    rewrite set_u16_at_app. lazymatch goal with |- bind ?e _ = _ => run_write e end. lay. cbn [app]. bytes_are.
  - unfold eit_item_size, eit_entry. rewrite descs_size_ok by assumption. rewrite app_length, layout_length by reflexivity. reflexivity.
Qed.

(** ** headers *)
Lemma psi_new_spec m table n version : psi_new m table (8 + n) version = Ok (mkPsi (head8 table 176 0 version 0 0 ++ repeat 0 n) 0 0 0).
Proof.
  unfold psi_new. assert (E : forall b, b = true -> dassert m b = Ok tt) by (intros b ->; destruct m; reflexivity).
  rewrite E by reflexivity. cbn [bind]. rewrite (resize_grow [] (8 + n) 0) by (cbn [length]; lia). cbn [length Nat.sub Nat.add app repeat].
  reflexivity.
Qed.
Lemma head_ident table sb ident version x y rest v : set_u16_at (head8 table sb ident version x y ++ rest) 3 v = Ok (head8 table sb v version x y ++ rest).
Proof. reflexivity. Qed.
Lemma head_dvb table ident version x y rest : set (head8 table 176 ident version x y ++ rest) 1 0xF0 = Ok (head8 table 240 ident version x y ++ rest).
Proof. reflexivity. Qed.
Lemma head_u16 table sb ident version x y rest k v :
  set_u16_at (head8 table sb ident version x y ++ rest) (8 + k) v = (r <- set_u16_at rest k v ;; Ok (head8 table sb ident version x y ++ r)).
Proof. apply (set_u16_at_app (head8 table sb ident version x y)). Qed.
Lemma head_set table sb ident version x y rest k v :
  set (head8 table sb ident version x y ++ rest) (8 + k) v = (r <- set rest k v ;; Ok (head8 table sb ident version x y ++ r)).
Proof. apply (set_at (head8 table sb ident version x y)). Qed.

Ltac hw1 k' r v := lazymatch goal with |- context [set_u16_at r k' v] => run_write (set_u16_at r k' v) end.
Ltac hw :=
  repeat first
  [ rewrite head_ident; cbn [bind]
  | rewrite head_dvb; cbn [bind]
  | match goal with
    | |- context [set_u16_at (head8 ?a ?b ?c ?d ?e ?f ++ ?r) (S (S (S (S (S (S (S (S ?k)))))))) ?v] =>
      change (set_u16_at (head8 a b c d e f ++ r) (S (S (S (S (S (S (S (S k)))))))) v) with (set_u16_at (head8 a b c d e f ++ r) (8 + k) v);
      rewrite head_u16; run_write (set_u16_at r k v)
    | |- context [set (head8 ?a ?b ?c ?d ?e ?f ++ ?r) (S (S (S (S (S (S (S (S ?k)))))))) ?v] =>
      change (set (head8 a b c d e f ++ r) (S (S (S (S (S (S (S (S k)))))))) v) with (set (head8 a b c d e f ++ r) (8 + k) v);
      rewrite head_set; run_write (set r k v)
    end ].
Ltac new n := lazymatch goal with |- context [psi_new ?m ?t _ ?v] =>
  let k := eval vm_compute in (n - 8)%nat in change (psi_new m t n v) with (psi_new m t (8 + k) v); rewrite (psi_new_spec m t k v); cbn [bind p_buffer repeat] end.

Lemma psi_buf a b : a = b -> @Ok psi (mkPsi a 0 0 0) = Ok (mkPsi b 0 0 0).
Proof. intros ->. reflexivity. Qed.
Ltac buf := unfold with_buffer; cbn [p_buffer p_size p_pid p_cc]; apply psi_buf.

Lemma pmt_init_spec m t (first : bool) : pmt_pcr t < 2 ^ 13 -> loop_ok (pmt_descs t) ->
  let ds := if first then pmt_descs t else [] in
  pmt_init m t first = Ok (mkPsi (head8 0x02 176 (pmt_pnr t) (pmt_version t) 0 0 ++
    layout [(3%nat, 7); (13%nat, pmt_pcr t); (4%nat, 15); (12%nat, wlen ds)] ++ wire ds) 0 0 0).
Proof.
  intros H1 (H3 & H4) ds. unfold pmt_init. new 12%nat. hw.
  destruct first; subst ds.
  - rewrite wire_assemble by assumption. cbn [bind]. rewrite <- app_assoc.
    unfold wlen. set (w := wire (pmt_descs t)) in *. assert (Hl : N.of_nat (length w) < 4096) by lia.
    generalize dependent (N.of_nat (length w)). intros n Hn. clear H4. clearbody w.
    hw. buf. f_equal. lay. cbn [app]. bytes_are.
  - hw. buf. f_equal. cbn [wire wlen map loop_of flat_map length]. lay. cbn [app]. bytes_are.
Qed.

(** the first section of a NIT is built with room for the length of its second loop *)
Lemma nit_init_spec m t (first : bool) : loop_ok (nit_descs t) ->
  let ds := if first then nit_descs t else [] in
  nit_init m t first = Ok (mkPsi (head8 (nit_table t) 240 (nit_network t) (nit_version t) 0 0 ++
    layout [(4%nat, 15); (12%nat, wlen ds)] ++ wire ds ++ [0; 0]) 0 0 0).
Proof.
  intros (H3 & H4) ds. unfold nit_init. new 10%nat. hw.
  destruct first; subst ds.
  - rewrite wire_assemble by assumption. cbn [bind]. rewrite <- app_assoc.
    unfold wlen. set (w := wire (nit_descs t)) in *. assert (Hl : N.of_nat (length w) < 4096) by lia.
    generalize dependent (N.of_nat (length w)). intros n Hn. clear H4. clearbody w.
    hw. buf. rewrite <- !app_assoc. f_equal. lay. cbn [app]. bytes_are.
  - hw. cbn [bind]. buf. rewrite <- !app_assoc. f_equal.
Qed.

Lemma sdt_init_spec m t : sdt_init m t = Ok (mkPsi (head8 (sdt_table t) 240 (sdt_tsid t) (sdt_version t) 0 0 ++
    layout [(16%nat, sdt_onid t); (8%nat, 255)]) 0 0 0).
Proof. unfold sdt_init. new 11%nat. hw. buf. f_equal. lay. bytes_are. Qed.

Lemma eit_init_spec m t : eit_init m t = Ok (mkPsi (head8 (eit_table t) 240 (eit_pnr t) (eit_version t) 0 0 ++
    layout [(16%nat, eit_tsid t); (16%nat, eit_onid t); (8%nat, 0); (8%nat, 0)]) 0 0 0).
Proof. unfold eit_init. new 14%nat. hw. buf. f_equal. lay. bytes_are. Qed.

(** ** sections *)
Ltac tw := repeat match goal with
  | |- context [(total_width ?l / 8)%nat] => let r := eval cbv in (total_width l / 8)%nat in change (total_width l / 8)%nat with r
  | H : context [(total_width ?l / 8)%nat] |- _ => let r := eval cbv in (total_width l / 8)%nat in change (total_width l / 8)%nat with r in H
  end.
Lemma stamp_table table dvb ident version rest (n k : nat) x y : table < 256 -> dvb < 2 ->
  finished (stamp (N.of_nat n) (N.of_nat k mod 256) (head8 table (176 + 64 * dvb) ident version x y ++ rest)) =
  section table dvb ident version (N.of_nat n) (N.of_nat k) rest.
Proof.
  intros Ht Hd. rewrite stamp_section by (try assumption; apply N.mod_lt; discriminate).
  rewrite <- (section_trunc _ _ _ _ (N.of_nat n) (N.of_nat k)), <- (section_trunc _ _ _ _ (N.of_nat n) (N.of_nat k mod 256)).
  rewrite N.mod_mod by discriminate. reflexivity.
Qed.
Lemma head8_bytes table sb ident version x y : table < 256 -> sb < 256 -> x < 256 -> y < 256 -> bytes (head8 table sb ident version x y).
Proof.
  intros. unfold head8. pose proof (version_byte (shlw U8 version 1)).
  repeat (constructor; [first [assumption|reflexivity|apply N.mod_lt; discriminate]|]). constructor.
Qed.
Lemma section_len table dvb ident version num last rest : length (section table dvb ident version num last rest) = (12 + length rest)%nat.
Proof.
  unfold section. cbv zeta. rewrite !app_length, to_be_length, layout_length by reflexivity.
  tw. lia.
Qed.

Lemma numbered_map {A B} (f : A -> B) (g : nat -> B -> list N) (h : nat -> A -> list N) l : (forall i x, In x l -> g i (f x) = h i x) ->
  forall n, numbered g n (map f l) = numbered h n l.
Proof.
  intros H. induction l as [|x l IH]; intros n; [reflexivity|]. cbn [map numbered]. rewrite H by (left; reflexivity).
  f_equal. apply IH. intros; apply H; right; assumption.
Qed.
Lemma numbered_ext {A} (g h : nat -> A -> list N) l : forall n, (forall i x, (n <= i)%nat -> In x l -> g i x = h i x) -> numbered g n l = numbered h n l.
Proof.
  induction l as [|x l IH]; intros n H; [reflexivity|]. cbn [numbered]. rewrite H by (try lia; left; reflexivity). f_equal.
  apply IH. intros; apply H; [lia|right; assumption].
Qed.
Lemma numbered_length {A} (g : nat -> A -> list N) l : forall n, length (numbered g n l) = length l.
Proof. induction l as [|x l IH]; intros n; [reflexivity|]. cbn [numbered length]. rewrite IH. reflexivity. Qed.

(** a group whose entries come from [items] *)
Lemma in_groups {A} (items g0 : list A) gs (P : A -> Prop) : items = g0 ++ concat gs -> Forall P items -> Forall P g0 /\ Forall (Forall P) gs.
Proof.
  intros -> F. apply Forall_app in F as [F0 F]. split; [assumption|]. induction gs as [|g gs IH]; [constructor|].
  cbn [concat] in F. apply Forall_app in F as [F1 F2]. constructor; [assumption|apply IH; assumption].
Qed.
Lemma single_len {A} (w : A -> list N) g n : (exists i, g = [i]) -> Forall (fun i => (length (w i) <= n)%nat) g -> (length (flat_map w g) <= n)%nat.
Proof. intros [i ->] F. inversion F; subst. cbn [flat_map]. rewrite app_nil_r. assumption. Qed.

Definition sect_psi (table dvb ident version : N) (rest : list N) : psi :=
  mkPsi (head8 table (176 + 64 * dvb) ident version 0 0 ++ rest) 0 0 0.

Lemma sect_raw table dvb ident version rest : table < 256 -> dvb < 2 -> bytes rest -> (length rest <= N.to_nat 4086)%nat ->
  raw_section (sect_psi table dvb ident version rest).
Proof.
  intros. unfold raw_section, sect_psi. cbn [p_buffer p_size]. split; [reflexivity|]. rewrite app_length.
  change (length (head8 table (176 + 64 * dvb) ident version 0 0)) with 8%nat. split; [|lia].
  apply bytes_app. split; [apply head8_bytes; lia|assumption].
Qed.

Lemma groups_demux {A} m table dvb ident version (r0 r1 : list A -> list N) g0 gs pid cc dst :
  table < 256 -> dvb < 2 -> pid < 8192 -> cc < 16 ->
  bytes (r0 g0) /\ (length (r0 g0) <= N.to_nat 4086)%nat -> Forall (fun g => bytes (r1 g) /\ (length (r1 g) <= N.to_nat 4086)%nat) gs ->
  let ss := numbered (fun i g => section table dvb ident version (N.of_nat i) (N.of_nat (length gs)) (if (i =? 0)%nat then r0 g else r1 g)) 0 (g0 :: gs) in
  demux_table m (sect_psi table dvb ident version (r0 g0) :: map (fun g => sect_psi table dvb ident version (r1 g)) gs) pid cc dst =
    Ok (next_cc pid cc ss, dst ++ concat (stream pid cc ss)) /\ Forall section_ok ss.
Proof.
  intros Ht Hd Hp Hc H0 H1 ss. set (l := sect_psi table dvb ident version (r0 g0) :: map (fun g => sect_psi table dvb ident version (r1 g)) gs).
  assert (F : Forall raw_section l).
  { constructor; [apply sect_raw; tauto|]. apply Forall_map. eapply Forall_impl; [|exact H1]. intros g [B L]. apply sect_raw; assumption. }
  destruct (demux_table_spec m l pid cc dst Hp Hc ltac:(discriminate) F) as [D K].
  assert (E : numbered (fun i p => finished (stamp (N.of_nat i) (N.of_nat (length l - 1) mod 256) (p_buffer p))) 0 l = ss).
  { subst l ss. cbn [length]. rewrite map_length, Nat.sub_succ, Nat.sub_0_r. cbn [numbered].
    f_equal; [unfold sect_psi; cbn [p_buffer]; rewrite stamp_table by assumption; reflexivity|].
    rewrite (numbered_map _ _ (fun i g => section table dvb ident version (N.of_nat i) (N.of_nat (length gs)) (r1 g))).
    - apply numbered_ext. intros i x Hi _. destruct (Nat.eqb_spec i 0); [lia|reflexivity].
    - intros i x _. unfold sect_psi. cbn [p_buffer]. apply stamp_table; assumption. }
  rewrite E in *. split; assumption.
Qed.

Lemma flat_len_le {A} (w : A -> list N) g k n : (length g <= 1)%nat \/ (k + length (flat_map w g) <= n)%nat ->
  Forall (fun i => (k + length (w i) <= n)%nat) g -> (k <= n)%nat -> (k + length (flat_map w g) <= n)%nat.
Proof.
  intros [L|L] F Hk; [|assumption]. destruct g as [|i [|j g]]; cbn [length flat_map] in *; [lia| |lia].
  inversion F; subst. rewrite app_nil_r. assumption.
Qed.
Lemma bytes_flat {A} (w : A -> list N) l : Forall (fun i => bytes (w i)) l -> bytes (flat_map w l).
Proof. apply flat_bytes. Qed.
Lemma pmt_entry_bytes i : pmt_item_ok i -> bytes (pmt_entry i).
Proof. intros (_ & _ & H & _). apply layouts_bytes_app; [apply layout_bytes|apply wire_bytes, H]. Qed.
Lemma nit_entry_bytes i : nit_item_ok i -> bytes (nit_entry i).
Proof. intros (_ & _ & H & _). apply layouts_bytes_app; [apply layout_bytes|apply wire_bytes, H]. Qed.
Lemma sdt_entry_bytes i : sdt_item_ok i -> bytes (sdt_entry i).
Proof. intros (_ & _ & _ & _ & _ & H & _). apply layouts_bytes_app; [apply layout_bytes|apply wire_bytes, H]. Qed.
Lemma eit_entry_bytes i : eit_item_ok i -> bytes (eit_entry i).
Proof. intros (_ & _ & _ & _ & _ & H & _). apply layouts_bytes_app; [apply layout_bytes|apply wire_bytes, H]. Qed.

(** how the sections of a table come about, [k] bytes of overhead in later sections (with CRC), [k0] in the first *)
Definition split_ok {A} (w : A -> list N) (k0 k : nat) (g0 : list A) (gs : list (list A)) : Prop :=
  Forall (fun g => g <> []) gs /\ (g0 = [] \/ (k0 + length (flat_map w g0) <= N.to_nat 1024)%nat) /\
  Forall (fun g => (exists i, g = [i]) \/ (k + length (flat_map w g) <= N.to_nat 1024)%nat) gs /\
  full w (N.to_nat 1024) k0 k g0 gs.

(** sections of at most [n] bytes *)
Lemma split_le {A} (w : A -> list N) k0 k g0 gs n : split_ok w k0 k g0 gs -> (k0 <= n)%nat -> (N.to_nat 1024 <= n)%nat ->
  Forall (fun i => (k + length (w i) <= n)%nat) (g0 ++ concat gs) ->
  (k0 + length (flat_map w g0) <= n)%nat /\ Forall (fun g => (k + length (flat_map w g) <= n)%nat) gs.
Proof.
  intros (_ & H0 & H1 & _) Hk Hn F. split; [destruct H0 as [-> |H0]; [cbn [flat_map length]|]; lia|].
  apply Forall_app in F as [_ F]. induction gs as [|g gs IH]; [constructor|]. cbn [concat] in F. apply Forall_app in F as [F1 F2].
  inversion H1 as [|? ? H1a H1b]; subst. constructor; [|apply IH; assumption].
  destruct H1a as [[i ->]|H1a]; [|lia]. inversion F1; subst. cbn [flat_map]. rewrite app_nil_r. assumption.
Qed.

Lemma pmt_sections_spec m t : pmt_ok t -> exists g0 gs, pmt_items t = g0 ++ concat gs /\
  split_ok pmt_entry (16 + length (wire (pmt_descs t))) 16 g0 gs /\
  pmt_sections m t = Ok (sect_psi 0x02 0 (pmt_pnr t) (pmt_version t)
      (layout [(3%nat, 7); (13%nat, pmt_pcr t); (4%nat, 15); (12%nat, wlen (pmt_descs t))] ++ wire (pmt_descs t) ++ flat_map pmt_entry g0) ::
    map (fun g => sect_psi 0x02 0 (pmt_pnr t) (pmt_version t)
      (layout [(3%nat, 7); (13%nat, pmt_pcr t); (4%nat, 15); (12%nat, wlen [])] ++ wire [] ++ flat_map pmt_entry g)) gs).
Proof.
  intros (H1 & H2 & H3 & H4 & H5). unfold pmt_sections.
  pose proof (pmt_init_spec m t true H3 H4) as I0. pose proof (pmt_init_spec m t false H3 H4) as I1. cbv zeta in I0, I1.
  rewrite I0. cbn [bind].
  match type of I0 with _ = Ok ?p => destruct (pack_spec SECTION_SIZE pmt_item_size (pmt_item_assemble m) _ pmt_entry _ I1 (pmt_items t) [] p) as (g0 & gs & E & P & N1 & N2 & N3 & N4) end.
  { intros i b Hi. apply pmt_item_spec. rewrite Forall_forall in H5. apply H5, Hi. }
  { intros i Hi. apply (pmt_item_spec m i []). rewrite Forall_forall in H5. apply H5, Hi. }
  exists g0, gs. split; [assumption|]. rewrite P. cbn [app p_buffer] in *. rewrite !app_length, !layout_length in * by reflexivity.
  split.
  - split; [assumption|]. unfold SECTION_SIZE in *. split.
    + destruct N2 as [N2|N2]; [left; assumption|right].
      change (length (head8 2 176 (pmt_pnr t) (pmt_version t) 0 0)) with 8%nat in N2. tw. lia.
    + split; [eapply Forall_impl; [|exact N3]; intros g [N|N]; [left; assumption|right];
      change (length (wire [])) with 0%nat in N;
      change (length (head8 2 176 (pmt_pnr t) (pmt_version t) 0 0)) with 8%nat in N; tw; lia|].
      refine (full_crc _ 4 _ _ _ _ _ _ _ _ _ _ _ N4); change (length (head8 2 176 (pmt_pnr t) (pmt_version t) 0 0)) with 8%nat;
        try change (length (wire [])) with 0%nat; tw; lia.
  - reflexivity.
Qed.

Lemma pmt_demux_spec m t pid cc dst : pmt_ok t -> pmt_fits (N.to_nat 4098) t -> pid < 8192 -> cc < 16 ->
  exists g0 gs, pmt_items t = g0 ++ concat gs /\ split_ok pmt_entry (16 + length (wire (pmt_descs t))) 16 g0 gs /\
  let ss := numbered (pmt_section t (N.of_nat (length gs))) 0 (g0 :: gs) in
  pmt_demux m t pid cc dst = Ok (next_cc pid cc ss, dst ++ concat (stream pid cc ss)) /\ Forall section_ok ss.
Proof.
  intros H [F0 F] Hp Hc. destruct (pmt_sections_spec m t H) as (g0 & gs & E & S & P). exists g0, gs. split; [assumption|]. split; [assumption|].
  unfold pmt_demux. rewrite P. cbn [bind]. rewrite E in F.
  destruct (split_le _ _ _ _ _ (N.to_nat 4098) S F0 ltac:(lia) F) as [L0 L1].
  destruct H as (H1 & H2 & H3 & H4 & H5). destruct (in_groups _ _ _ _ E H5) as [G0 G1].
  assert (R : forall ds g, Forall desc_ok ds -> Forall pmt_item_ok g -> (16 + length (wire ds) + length (flat_map pmt_entry g) <= N.to_nat 4098)%nat ->
    let r := layout [(3%nat, 7); (13%nat, pmt_pcr t); (4%nat, 15); (12%nat, wlen ds)] ++ wire ds ++ flat_map pmt_entry g in
    bytes r /\ (length r <= N.to_nat 4086)%nat).
  { intros ds g D G L r. subst r. split.
    - apply layouts_bytes_app; [apply layout_bytes|]. apply layouts_bytes_app; [apply wire_bytes, D|]. apply bytes_flat.
      eapply Forall_impl; [|exact G]. intros i Hi. apply pmt_entry_bytes, Hi.
    - rewrite !app_length, layout_length by reflexivity. tw. lia. }
  pose proof (groups_demux m 0x02 0 (pmt_pnr t) (pmt_version t)
    (fun g => layout [(3%nat, 7); (13%nat, pmt_pcr t); (4%nat, 15); (12%nat, wlen (pmt_descs t))] ++ wire (pmt_descs t) ++ flat_map pmt_entry g)
    (fun g => layout [(3%nat, 7); (13%nat, pmt_pcr t); (4%nat, 15); (12%nat, wlen [])] ++ wire [] ++ flat_map pmt_entry g)
    g0 gs pid cc dst ltac:(lia) ltac:(lia) Hp Hc) as D. cbv beta zeta in D.
  match type of D with ?A -> ?B -> _ => assert (DA : A) end.
  { apply R; [apply H4|assumption|lia]. }
  match type of D with _ -> ?B -> _ => assert (DB : B) end.
  { clear - R G1 L1. induction gs as [|g gs IH]; [constructor|]. inversion G1; inversion L1; subst. constructor; [|apply IH; assumption].
    apply R; [constructor|assumption|]. cbn [wire map loop_of flat_map length]. lia. }
  specialize (D DA DB). 
  match type of D with context [numbered ?f 0 _] => replace (numbered f 0 (g0 :: gs)) with (numbered (pmt_section t (N.of_nat (length gs))) 0 (g0 :: gs)) in D end.
  - exact D.
  - apply numbered_ext. intros i g _ _. unfold pmt_section. cbv zeta. destruct (Nat.eqb_spec i 0); reflexivity.
Qed.

(** ** SDT *)
Lemma sdt_sections_spec m t : sdt_ok t -> exists g0 gs, sdt_items t = g0 ++ concat gs /\ split_ok sdt_entry 15 15 g0 gs /\
  sdt_sections m t = Ok (map (fun g => sect_psi (sdt_table t) 1 (sdt_tsid t) (sdt_version t)
      (layout [(16%nat, sdt_onid t); (8%nat, 255)] ++ flat_map sdt_entry g)) (g0 :: gs)).
Proof.
  intros (H1 & H2 & H3 & H4 & H5). unfold sdt_sections. pose proof (sdt_init_spec m t) as I1.
  match type of I1 with _ = Ok ?p => destruct (pack_spec SECTION_SIZE sdt_item_size (sdt_item_assemble m) _ sdt_entry _ I1 (sdt_items t) [] p) as (g0 & gs & E & P & N1 & N2 & N3 & N4) end.
  { intros i b Hi. apply sdt_item_spec. rewrite Forall_forall in H5. apply H5, Hi. }
  { intros i Hi. apply (sdt_item_spec m i []). rewrite Forall_forall in H5. apply H5, Hi. }
  exists g0, gs. split; [assumption|]. rewrite I1 in P |- *. cbn [bind]. rewrite P. cbn [app p_buffer] in *. rewrite !app_length, !layout_length in * by reflexivity.
  split.
  - split; [assumption|]. unfold SECTION_SIZE in *. split.
    + destruct N2 as [N2|N2]; [left; assumption|right].
      change (length (head8 (sdt_table t) 240 (sdt_tsid t) (sdt_version t) 0 0)) with 8%nat in N2. tw. lia.
    + split; [eapply Forall_impl; [|exact N3]; intros g [N|N]; [left; assumption|right];
      change (length (head8 (sdt_table t) 240 (sdt_tsid t) (sdt_version t) 0 0)) with 8%nat in N; tw; lia|].
      refine (full_crc _ 4 _ _ _ _ _ _ _ _ _ _ _ N4); change (length (head8 (sdt_table t) 240 (sdt_tsid t) (sdt_version t) 0 0)) with 8%nat; tw; lia.
  - reflexivity.
Qed.

Lemma sdt_demux_spec m t pid cc dst : sdt_ok t -> sdt_fits (N.to_nat 4098) t -> pid < 8192 -> cc < 16 ->
  exists g0 gs, sdt_items t = g0 ++ concat gs /\ split_ok sdt_entry 15 15 g0 gs /\
  let ss := numbered (sdt_section t (N.of_nat (length gs))) 0 (g0 :: gs) in
  sdt_demux m t pid cc dst = Ok (next_cc pid cc ss, dst ++ concat (stream pid cc ss)) /\ Forall section_ok ss.
Proof.
  intros H F Hp Hc. destruct (sdt_sections_spec m t H) as (g0 & gs & E & S & P). exists g0, gs. split; [assumption|]. split; [assumption|].
  unfold sdt_demux. rewrite P. cbn [bind]. unfold sdt_fits in F. rewrite E in F.
  destruct (split_le _ _ _ _ _ (N.to_nat 4098) S ltac:(lia) ltac:(lia) F) as [L0 L1].
  destruct H as (H1 & H2 & H3 & H4 & H5). destruct (in_groups _ _ _ _ E H5) as [G0 G1].
  assert (R : forall g, Forall sdt_item_ok g -> (15 + length (flat_map sdt_entry g) <= N.to_nat 4098)%nat ->
    let r := layout [(16%nat, sdt_onid t); (8%nat, 255)] ++ flat_map sdt_entry g in
    bytes r /\ (length r <= N.to_nat 4086)%nat).
  { intros g G L r. subst r. split.
    - apply layouts_bytes_app; [apply layout_bytes|]. apply bytes_flat.
      eapply Forall_impl; [|exact G]. intros i Hi. apply sdt_entry_bytes, Hi.
    - rewrite !app_length, layout_length by reflexivity. tw. lia. }
  pose proof (groups_demux m (sdt_table t) 1 (sdt_tsid t) (sdt_version t)
    (fun g => layout [(16%nat, sdt_onid t); (8%nat, 255)] ++ flat_map sdt_entry g)
    (fun g => layout [(16%nat, sdt_onid t); (8%nat, 255)] ++ flat_map sdt_entry g)
    g0 gs pid cc dst ltac:(lia) ltac:(lia) Hp Hc) as D. cbv beta zeta in D.
  match type of D with ?A -> ?B -> _ => assert (DA : A) end.
  { apply R; [assumption|lia]. }
  match type of D with _ -> ?B -> _ => assert (DB : B) end.
  { clear - R G1 L1. induction gs as [|g gs IH]; [constructor|]. inversion G1; inversion L1; subst. constructor; [|apply IH; assumption].
    apply R; assumption. }
  specialize (D DA DB). 
  match type of D with context [numbered ?f 0 _] => replace (numbered f 0 (g0 :: gs)) with (numbered (sdt_section t (N.of_nat (length gs))) 0 (g0 :: gs)) in D end.
  - exact D.
  - apply numbered_ext. intros i g _ _. unfold sdt_section. cbv zeta. destruct (Nat.eqb_spec i 0); reflexivity.
Qed.

(** ** NIT *)
Lemma nit_close_spec m t ds loop : Forall desc_ok ds -> (length (wire ds) < N.to_nat 4096)%nat -> (length loop < N.to_nat 4096)%nat ->
  nit_close m (sect_psi (nit_table t) 1 (nit_network t) (nit_version t) (layout [(4%nat, 15); (12%nat, wlen ds)] ++ wire ds ++ [0; 0] ++ loop)) =
  Ok (sect_psi (nit_table t) 1 (nit_network t) (nit_version t)
    (layout [(4%nat, 15); (12%nat, wlen ds)] ++ wire ds ++ layout [(4%nat, 15); (12%nat, N.of_nat (length loop))] ++ loop)).
Proof.
  intros D Hw Hl. unfold nit_close, sect_psi. cbn [p_buffer]. change (176 + 64 * 1) with 240.
  assert (LF : field (layout [(4%nat, 15); (12%nat, wlen ds)]) 4 12 = wlen ds).
  { apply field_val; try reflexivity. unfold wlen. change (2 ^ N.of_nat 12) with 4096. lia. }
  pose proof (layout_bytes [(4%nat, 15); (12%nat, wlen ds)]) as LB.
  assert (LL : length (layout [(4%nat, 15); (12%nat, wlen ds)]) = 2%nat) by reflexivity.
  generalize dependent (layout [(4%nat, 15); (12%nat, wlen ds)]). intros L LF LB LL.
  assert (LH : length (head8 (nit_table t) 240 (nit_network t) (nit_version t) 0 0) = 8%nat) by reflexivity.
  generalize dependent (head8 (nit_table t) 240 (nit_network t) (nit_version t) 0 0). intros H LH.
  assert (Eg : get_u16_at (H ++ L ++ wire ds ++ [0; 0] ++ loop) 8 = Ok (field L (8 * 0) 16)).
  { replace 8%nat with (length H + 0)%nat at 1 by lia. rewrite u16_at. change 0%nat with (length (@nil N) + 0)%nat at 1.
    destruct L as [|a [|b [|c L]]]; try discriminate LL. apply (get_u16_field [a; b] 0); [assumption|cbn [length]; lia]. }
  rewrite Eg. cbn [bind].
  assert (El : N.to_nat (N.land (field L (8 * 0) 16) 0x0FFF) = length (wire ds)).
  { rewrite (low12 L 0) by (rewrite LL; lia). cbn [Nat.mul Nat.add]. rewrite LF. apply Nat2N.id. }
  rewrite El. rewrite !app_length, LH, LL. cbn [length].
  rewrite subw_ok by lia. cbn [bind]. rewrite subw_ok by lia. cbn [bind].
  replace (N.of_nat (8 + (2 + (length (wire ds) + (2 + length loop)))) - 12 - N.of_nat (length (wire ds))) with (N.of_nat (length loop)) by lia.
  replace (10 + length (wire ds))%nat with (length (H ++ L ++ wire ds)) by (rewrite !app_length, LH, LL; lia).
  replace (H ++ L ++ wire ds ++ [0; 0] ++ loop) with ((H ++ L ++ wire ds) ++ [0; 0] ++ loop) by (rewrite <- !app_assoc; reflexivity).
  rewrite set_u16_at_app0. assert (Hn : N.of_nat (length loop) < 4096) by lia. generalize dependent (N.of_nat (length loop)). intros n Hn.
  cbn [app]. lazymatch goal with |- bind (bind ?e _) _ = _ => run_write e end. unfold with_buffer. cbn [p_size p_pid p_cc]. apply psi_buf.
  rewrite <- !app_assoc. do 3 f_equal. lay. cbn [app]. bytes_are.
Qed.

Lemma nit_close_all_spec m t (G : list (list desc * list N)) :
  Forall (fun x => Forall desc_ok (fst x) /\ (length (wire (fst x)) < N.to_nat 4096)%nat /\ (length (snd x) < N.to_nat 4096)%nat) G ->
  nit_close_all m (map (fun x => sect_psi (nit_table t) 1 (nit_network t) (nit_version t)
      (layout [(4%nat, 15); (12%nat, wlen (fst x))] ++ wire (fst x) ++ [0; 0] ++ snd x)) G) =
  Ok (map (fun x => sect_psi (nit_table t) 1 (nit_network t) (nit_version t)
      (layout [(4%nat, 15); (12%nat, wlen (fst x))] ++ wire (fst x) ++ layout [(4%nat, 15); (12%nat, N.of_nat (length (snd x)))] ++ snd x)) G).
Proof.
  induction 1 as [|x G (H1 & H2 & H3) _ IH]; [reflexivity|]. cbn [map nit_close_all]. rewrite nit_close_spec by assumption. cbn [bind].
  rewrite IH. reflexivity.
Qed.

Lemma nit_sections_spec m t : nit_ok t -> nit_fits (N.to_nat 4098) t -> exists g0 gs, nit_items t = g0 ++ concat gs /\
  split_ok nit_entry (16 + length (wire (nit_descs t))) 16 g0 gs /\
  nit_sections m t = Ok (map (fun x => sect_psi (nit_table t) 1 (nit_network t) (nit_version t)
      (layout [(4%nat, 15); (12%nat, wlen (fst x))] ++ wire (fst x) ++ layout [(4%nat, 15); (12%nat, N.of_nat (length (snd x)))] ++ snd x))
    ((nit_descs t, flat_map nit_entry g0) :: map (fun g => ([], flat_map nit_entry g)) gs)).
Proof.
  intros (H1 & H2 & H3 & H4 & H5) [F0 F]. unfold nit_sections.
  pose proof (nit_init_spec m t true H4) as I0. pose proof (nit_init_spec m t false H4) as I1. cbv zeta in I0, I1.
  rewrite I0. cbn [bind].
  match type of I0 with _ = Ok ?p => destruct (pack_spec SECTION_SIZE nit_item_size (nit_item_assemble m) _ nit_entry _ I1 (nit_items t) [] p) as (g0 & gs & E & P & N1 & N2 & N3 & N4) end.
  { intros i b Hi. apply nit_item_spec. rewrite Forall_forall in H5. apply H5, Hi. }
  { intros i Hi. apply (nit_item_spec m i []). rewrite Forall_forall in H5. apply H5, Hi. }
  exists g0, gs. split; [assumption|]. rewrite P. cbn [app p_buffer] in *. rewrite !app_length, !layout_length in * by reflexivity.
  assert (S : split_ok nit_entry (16 + length (wire (nit_descs t))) 16 g0 gs).
  { split; [assumption|]. unfold SECTION_SIZE in *. split.
    + destruct N2 as [N2|N2]; [left; assumption|right].
      change (length (head8 (nit_table t) 240 (nit_network t) (nit_version t) 0 0)) with 8%nat in N2. cbn [length] in N2. tw. lia.
    + split; [eapply Forall_impl; [|exact N3]; intros g [N|N]; [left; assumption|right];
      change (length (head8 (nit_table t) 240 (nit_network t) (nit_version t) 0 0)) with 8%nat in N;
      change (length (wire [])) with 0%nat in N; cbn [length] in N; tw; lia|].
      refine (full_crc _ 4 _ _ _ _ _ _ _ _ _ _ _ N4); change (length (head8 (nit_table t) 240 (nit_network t) (nit_version t) 0 0)) with 8%nat;
        try change (length (wire [])) with 0%nat; cbn [length]; tw; lia. }
  split; [assumption|]. rewrite E in F. destruct (split_le _ _ _ _ _ (N.to_nat 4098) S F0 ltac:(lia) F) as [L0 L1].
  cbn [bind]. rewrite <- (nit_close_all_spec m t).
  - f_equal. cbn [map fst snd]. f_equal; [unfold sect_psi, with_buffer; cbn [p_buffer p_size p_pid p_cc]; rewrite <- !app_assoc; reflexivity|].
    rewrite map_map. apply map_ext. intros g. unfold sect_psi, with_buffer. cbn [p_buffer p_size p_pid p_cc fst snd]. rewrite <- !app_assoc. reflexivity.
  - constructor; cbn [fst snd]; [destruct H4; repeat split; try assumption; lia|]. apply Forall_map. eapply Forall_impl; [|exact L1].
    intros g Lg. cbn [fst snd]. split; [constructor|]. split; [change (length (wire [])) with 0%nat; lia|]. cbv beta in Lg. lia.
Qed.

Lemma nit_demux_spec m t pid cc dst : nit_ok t -> nit_fits (N.to_nat 4098) t -> pid < 8192 -> cc < 16 ->
  exists g0 gs, nit_items t = g0 ++ concat gs /\ split_ok nit_entry (16 + length (wire (nit_descs t))) 16 g0 gs /\
  let ss := numbered (nit_section t (N.of_nat (length gs))) 0 (g0 :: gs) in
  nit_demux m t pid cc dst = Ok (next_cc pid cc ss, dst ++ concat (stream pid cc ss)) /\ Forall section_ok ss.
Proof.
  intros H [F0 F] Hp Hc. destruct (nit_sections_spec m t H (conj F0 F)) as (g0 & gs & E & S & P). exists g0, gs. split; [assumption|]. split; [assumption|].
  unfold nit_demux. rewrite P. cbn [bind]. rewrite E in F.
  destruct (split_le _ _ _ _ _ (N.to_nat 4098) S F0 ltac:(lia) F) as [L0 L1].
  destruct H as (H1 & H2 & H3 & H4 & H5). destruct (in_groups _ _ _ _ E H5) as [G0 G1].
  assert (R : forall ds g, Forall desc_ok ds -> Forall nit_item_ok g -> (16 + length (wire ds) + length (flat_map nit_entry g) <= N.to_nat 4098)%nat ->
    let r := layout [(4%nat, 15); (12%nat, wlen ds)] ++ wire ds ++ layout [(4%nat, 15); (12%nat, N.of_nat (length (flat_map nit_entry g)))] ++ flat_map nit_entry g in
    bytes r /\ (length r <= N.to_nat 4086)%nat).
  { intros ds g D G L r. subst r. split.
    - apply layouts_bytes_app; [apply layout_bytes|]. apply layouts_bytes_app; [apply wire_bytes, D|].
      apply layouts_bytes_app; [apply layout_bytes|]. apply bytes_flat.
      eapply Forall_impl; [|exact G]. intros i Hi. apply nit_entry_bytes, Hi.
    - rewrite !app_length, !layout_length by reflexivity. tw. lia. }
  pose proof (groups_demux m (nit_table t) 1 (nit_network t) (nit_version t)
    (fun g => layout [(4%nat, 15); (12%nat, wlen (nit_descs t))] ++ wire (nit_descs t) ++ layout [(4%nat, 15); (12%nat, N.of_nat (length (flat_map nit_entry g)))] ++ flat_map nit_entry g)
    (fun g => layout [(4%nat, 15); (12%nat, wlen [])] ++ wire [] ++ layout [(4%nat, 15); (12%nat, N.of_nat (length (flat_map nit_entry g)))] ++ flat_map nit_entry g)
    g0 gs pid cc dst ltac:(lia) ltac:(lia) Hp Hc) as D. cbv beta zeta in D.
  match type of D with ?A -> ?B -> _ => assert (DA : A) end.
  { apply R; [apply H4|assumption|lia]. }
  match type of D with _ -> ?B -> _ => assert (DB : B) end.
  { clear - R G1 L1. induction gs as [|g gs IH]; [constructor|]. inversion G1; inversion L1; subst. constructor; [|apply IH; assumption].
    apply R; [constructor|assumption|]. cbn [wire map loop_of flat_map length]. lia. }
  specialize (D DA DB). cbn [map fst snd]. rewrite map_map. cbn [fst snd].
  match type of D with context [numbered ?f 0 _] => replace (numbered f 0 (g0 :: gs)) with (numbered (nit_section t (N.of_nat (length gs))) 0 (g0 :: gs)) in D end.
  - exact D.
  - apply numbered_ext. intros i g _ _. unfold nit_section. cbv zeta. destruct (Nat.eqb_spec i 0); reflexivity.
Qed.
