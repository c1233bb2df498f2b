(** Property theorems C19-C26: DVB text and language codes. Specification: S_textdata (code
    pages), S_text. A text is a list of Unicode scalar values ([is_char]). *)
From Coq Require Import String.
From Verif Require Import Prelude Layout S_textdata S_text M_textdata M_text.
From Verif Require P_text P_text2 P_text3.

(** ** vocabulary of the statements *)
Definition bmp (c : N) : Prop := c < 0x10000.
(** Привет! *)
Definition ex_text : list N := [0x41F; 0x440; 0x438; 0x432; 0x435; 0x442; 0x21].

(** * C19 *)
Theorem C19_page_round_trip : forall m s cp page, In (cp, page) pages -> Forall (representable page) s ->
  exists t, dvb_from_str m s cp = Ok t /\ t_cp t = cp /\ dvb_display t = Ok (Some s).
Proof. exact P_text.text_round. Qed.
Print Assumptions C19_page_round_trip.
Theorem C19_utf8_round_trip : forall m s, Forall is_char s ->
  exists t, dvb_from_str m s 21 = Ok t /\ t_cp t = 21 /\ dvb_display t = Ok (Some s).
Proof. exact P_text.utf8_round. Qed.
Print Assumptions C19_utf8_round_trip.
(** the bytes are those of the code page *)
Example C19_ex : In (5, iso8859_5) pages /\ Forall (representable iso8859_5) ex_text /\
  dvb_from_str Debug ex_text 5 = Ok (mkDvb 5 [0xbf; 0xe0; 0xd8; 0xd2; 0xd5; 0xe2; 0x21]) /\
  dvb_display (mkDvb 5 [0xbf; 0xe0; 0xd8; 0xd2; 0xd5; 0xe2; 0x21]) = Ok (Some ex_text).
Proof.
  split; [cbn; tauto|]. split; [|split; vm_compute; reflexivity].
  repeat (apply Forall_cons || apply Forall_nil); try (left; reflexivity); right;
    [exists 0xbf|exists 0xe0|exists 0xd8|exists 0xd2|exists 0xd5|exists 0xe2]; split; try lia; vm_compute; reflexivity.
Qed.
Example C19_utf8_ex : dvb_from_str Debug [0x1F4FA; 0x20AC; 0xE9] 21 = Ok (mkDvb 21 [0xF0; 0x9F; 0x93; 0xBA; 0xE2; 0x82; 0xAC; 0xC3; 0xA9])
  /\ Forall is_char [0x1F4FA; 0x20AC; 0xE9].
Proof. split; [vm_compute; reflexivity|]. repeat constructor; unfold is_char; lia. Qed.

(** * C20 *)
Theorem C20_encoding : forall m s cp page, In (cp, page) pages -> Forall bmp s ->
  exists chunks, dvb_from_str m s cp = Ok (mkDvb cp (concat chunks)) /\ Forall2 (encoded page) s chunks.
Proof.
  intros m s cp page Hp Hs. destruct (P_text.from_str_page m s cp page Hp) as (chunks & E & F).
  exists chunks. split; [exact E|]. clear E. induction F as [|c x s chunks Hx _ IH]; [constructor|].
  inversion Hs as [|? ? Hc Hs']; subst. constructor; [|apply IH; assumption].
  rewrite N.mod_small in Hx by exact Hc. exact Hx.
Qed.
Print Assumptions C20_encoding.
(** the specified bytes are unique *)
Theorem C20_encoding_unique : forall cp page c x y, In (cp, page) pages ->
  encoded page c x -> encoded page c y -> x = y.
Proof. exact P_text.encoded_fun. Qed.
Print Assumptions C20_encoding_unique.
Theorem C20_unsupported_page : forall m s cp, ~ In cp (map fst pages) ->
  exists t, dvb_from_str m s cp = Ok t /\ dvb_from_str m s 21 = Ok t.
Proof.
  intros m s cp H. exists (mkDvb 21 (utf8 s)). split; [|reflexivity]. unfold dvb_from_str.
  rewrite (P_text.unsupported cp H). change UTF8 with 21. destruct (N.eqb_spec cp 21) as [->|]; reflexivity.
Qed.
Print Assumptions C20_unsupported_page.
(** characters above U+FFFF are taken modulo 2^16 *)
Theorem C20_above_bmp : forall m s cp page, In (cp, page) pages ->
  exists chunks, dvb_from_str m s cp = Ok (mkDvb cp (concat chunks)) /\
    Forall2 (fun c x => encoded page (c mod 0x10000) x) s chunks.
Proof. exact P_text.from_str_page. Qed.
Print Assumptions C20_above_bmp.
(** hence not every character outside the page becomes a substitute: U+10041 becomes A *)
Theorem C20_substitute_refuted : exists cp page c, In (cp, page) pages /\ is_char c /\ ~ representable page c /\
  dvb_from_str Debug [c] cp = Ok (mkDvb cp [65]) /\ substitute c = [63].
Proof.
  exists 5, iso8859_5, 0x10041. split; [cbn; tauto|]. split; [right; lia|]. split.
  - intros H. assert (Hp : In (5, iso8859_5) pages) by (cbn; tauto).
    pose proof (P_text.representable_small 5 iso8859_5 _ Hp H). lia.
  - split; vm_compute; reflexivity.
Qed.
Print Assumptions C20_substitute_refuted.
Example C20_ex : dvb_from_str Release [65; 0x85; 0x2026; 0x201C; 0x20AC; 0x2116; 0x2019] 5 =
  Ok (mkDvb 5 [65; 46; 46; 46; 34; 63; 0xF0; 39]) /\ dvb_from_str Release [0xE9] 12 = Ok (mkDvb 21 [0xC3; 0xA9]).
Proof. split; vm_compute; reflexivity. Qed.

(** * C21 *)
(** exactly these texts are read back *)
Theorem C21_wire_round_trip : forall m t, t_cp t < 256 ->
  (exists w, dvb_assemble m t [] = Ok w /\ dvb_from m w = Ok t) <-> rereadable (t_cp t) (t_data t).
Proof. exact P_text2.reread_iff. Qed.
Print Assumptions C21_wire_round_trip.
(** texts made by from_str *)
Theorem C21_from_str_round_trip : forall m s cp t, cp < 256 -> dvb_from_str m s cp = Ok t -> t_data t <> [] ->
  (t_cp t = 0 -> 0x20 <= hd 0 (t_data t)) ->
  exists w, dvb_assemble m t [] = Ok w /\ dvb_from m w = Ok t.
Proof.
  intros m s cp t Hc E Hd H0. assert (t_cp t = 0 \/ t_cp t <> 0) as [Z|Z] by lia.
  - apply P_text2.reread_iff; [lia|]. right. split; [assumption|]. left. auto.
  - destruct (P_text2.from_str_cp m s cp t Hc E Z); (apply P_text2.reread_iff; [lia|]; right; split; [assumption|lia]).
Qed.
Print Assumptions C21_from_str_round_trip.
(** assemble appends the selector of the code page and the data, size() counts them *)
Theorem C21_assemble : forall m t dst, t_cp t < 256 ->
  exists w, dvb_assemble m t dst = Ok (dst ++ w) /\ dvb_size t = length w /\
    (t_data t = [] -> w = []) /\ (t_data t <> [] -> w = selector (t_cp t) ++ t_data t) /\
    dvb_assemble_sized m t dst = Ok (dst ++ N.of_nat (dvb_size t) mod 256 :: w).
Proof.
  intros m t dst H. exists (P_text2.wire t). split; [apply P_text2.dvb_assemble_spec; assumption|].
  split; [apply P_text2.dvb_size_spec|]. split; [unfold P_text2.wire; intros ->; reflexivity|].
  split; [unfold P_text2.wire; destruct (t_data t); [congruence|reflexivity]|].
  apply P_text2.dvb_assemble_sized_spec. assumption.
Qed.
Print Assumptions C21_assemble.
Example C21_ex : dvb_assemble_sized Debug (mkDvb 2 [0xBF; 0x41]) [9] = Ok [9; 5; 0x10; 0; 2; 0xBF; 0x41] /\
  dvb_from Debug [0x10; 0; 2; 0xBF; 0x41] = Ok (mkDvb 2 [0xBF; 0x41]) /\
  dvb_assemble Debug (mkDvb 5 [0xBF; 0x41]) [9] = Ok [9; 1; 0xBF; 0x41] /\
  rereadable 5 [0xBF; 0x41] /\ ~ rereadable 0 [0x0A; 0x41].
Proof.
  repeat (split; [vm_compute; reflexivity|]). split.
  - right. split; [discriminate|]. right. left. lia.
  - intros [[H _]|[_ [[_ H]|[H|H]]]]; [discriminate|vm_compute in H; congruence|lia|lia].
Qed.

(** * C22 *)
Theorem C22_total : forall m b, exists t, dvb_from m b = Ok t.
Proof. exact P_text2.dvb_from_total. Qed.
Print Assumptions C22_total.
(** exactly these byte strings survive reading and writing *)
Theorem C22_reassembly : forall m b, bytes b ->
  (exists t, dvb_from m b = Ok t /\ dvb_assemble m t [] = Ok b) <-> stable b.
Proof. exact P_text2.rewrite_iff. Qed.
Print Assumptions C22_reassembly.
Theorem C22_reassembly_refuted : exists b t w, bytes b /\ dvb_from Release b = Ok t /\ dvb_assemble Release t [] = Ok w /\
  dvb_from Release w <> Ok t.
Proof.
  exists [0x0C; 0x41; 0x42; 0x43]. eexists _, _. split; [repeat constructor|]. split; [vm_compute; reflexivity|].
  split; [vm_compute; reflexivity|]. vm_compute. congruence.
Qed.
Print Assumptions C22_reassembly_refuted.
(** Display fails, hence to_string and Debug abort, exactly for unknown code pages *)
Theorem C22_display_error : forall t, bytes (t_data t) ->
  (dvb_display t = Ok None <-> (t_data t <> [] /\ t_cp t <> 21 /\ ~ In (t_cp t) (map fst pages))) /\
  (dvb_display t = Ok None -> dvb_to_string t = Panic).
Proof.
  intros t H. split; [apply P_text2.display_error; assumption|]. intros E. unfold dvb_to_string. rewrite E. reflexivity.
Qed.
Print Assumptions C22_display_error.
Theorem C22_printable_refuted : exists m b t, dvb_from m b = Ok t /\ dvb_to_string t = Panic.
Proof. exists Debug, [0x08; 0x41], (mkDvb 12 [0x41]). split; vm_compute; reflexivity. Qed.
Print Assumptions C22_printable_refuted.
Example C22_ex : stable [0x10; 0; 3; 65] /\ ~ stable [0; 65] /\ dvb_from Debug [0; 65] = Ok (mkDvb 4 [65]).
Proof.
  split; [right; right; right; exists 3, [65]; split; [reflexivity|split; [lia|discriminate]]|]. split; [|vm_compute; reflexivity].
  intros [H|[H|[[[H|H] _]|(cp & d & H & _)]]]; cbn in H; try lia; discriminate.
Qed.

(** * C23 *)
Theorem C23_display_page : forall cp page data, In (cp, page) pages -> bytes data ->
  dvb_display (mkDvb cp data) = Ok (Some (flat_map (shown page) data)) /\
  Forall is_char (flat_map (shown page) data).
Proof.
  intros cp page data Hp Hb. split; [apply P_text.display_page; assumption|].
  induction Hb as [|b data Hb _ IH]; [constructor|]. cbn. apply Forall_app. split; [|assumption].
  apply (P_text.shown_chars cp); assumption.
Qed.
Print Assumptions C23_display_page.
(** never undefined behaviour or a panic, whatever the code page; the output is text *)
Theorem C23_display_safe : forall t, bytes (t_data t) ->
  exists r, dvb_display t = Ok r /\ match r with Some s => Forall is_char s | None => True end.
Proof.
  intros [cp data] Hb. cbn [t_data] in Hb. destruct (P_text.page_of cp) as [page|] eqn:E.
  - apply P_text.page_in in E. destruct (C23_display_page cp page data E Hb) as [-> H]. eexists. split; [reflexivity|exact H].
  - unfold dvb_display. cbn [t_data t_cp]. destruct data as [|b d]; [eexists; split; [reflexivity|constructor]|].
    cbn [length Nat.eqb]. destruct (cp =? UTF8); [eexists; split; [reflexivity|apply P_text.lossy_chars; assumption]|].
    apply P_text.page_not_in in E. rewrite (P_text.unsupported cp E). eexists. split; [reflexivity|exact I].
Qed.
Print Assumptions C23_display_safe.
Example C23_ex : dvb_display (mkDvb 3 [0x41; 0x8A; 0xA1; 0xA5]) = Ok (Some [0x41; 0x126; 63]) /\
  dvb_display (mkDvb 21 [0x41; 0xE2; 0x82; 0x41; 0xFF]) = Ok (Some [0x41; 0xFFFD; 0x41; 0xFFFD]).
Proof. split; vm_compute; reflexivity. Qed.

(** * C24 *)
(** The text is shorter than 2^63 bytes (every Vec is). [fuel] bounds the number of rounds of
    the loop: [Hang] for every fuel is non-termination. *)
Theorem C24_split : forall fuel m t size, t_cp t < 256 -> bytes (t_data t) -> t_data t <> [] ->
  N.of_nat (length (t_data t)) < 2 ^ 63 -> size < 2 ^ 64 ->
  reserved (t_cp t) + (if t_cp t =? 21 then 3 else 1) <= size ->
  (length (t_data t) < fuel)%nat ->
  exists l, dvb_split fuel m t size = Ok l /\ concat (map t_data l) = t_data t /\
    Forall (fun p => t_cp p = t_cp t /\ t_data p <> [] /\ N.of_nat (dvb_size p) <= size) l /\
    Forall (fun p => size <= reserved (t_cp t) + N.of_nat (length (t_data p)) + (if t_cp t =? 21 then 2 else 0)) (removelast l).
Proof.
  intros fuel m t size Hcp Hb Hd Hlen Hsz Hroom Hf. unfold dvb_split.
  set (e := size - reserved (t_cp t)).
  assert (Ee : (if t_cp t =? 0 then Ok size else if t_cp t =? UTF8 then subw U64 m size 1 else subw U64 m size 3) = Ok e).
  { unfold e, reserved in *. change UTF8 with 21. unfold subw. destruct (N.eqb_spec (t_cp t) 0) as [Z|Z]; [f_equal; lia|].
    destruct (N.eqb_spec (t_cp t) 21).
    - destruct (N.leb_spec 1 size); [reflexivity|lia].
    - destruct (N.leb_spec 3 size); [reflexivity|lia]. }
  rewrite Ee. cbn [bind]. destruct (Nat.eqb_spec (length (t_data t)) 0) as [Z|Z].
  { exfalso. destruct (t_data t); [congruence|discriminate]. }
  destruct (P_text3.split_loop_spec m t (N.to_nat e) Hb Hlen) with (fuel := fuel) (skip := 0%nat) as (l & E & C & P & Q).
  - unfold U64. change (2 ^ 64) with 18446744073709551616 in Hsz. unfold e. lia.
  - unfold P_text3.slack, e. destruct (N.eqb_spec (t_cp t) 21); lia.
  - lia.
  - lia.
  - lia.
  - rewrite N2Nat.id in E. exists l. split; [exact E|]. split; [exact C|]. split.
    + apply (Forall_impl _ (P := P_text3.piece_ok (t_cp t) (N.to_nat e))); [|exact P].
      intros p [Hp1 Hp2]. split; [assumption|]. split; [intros H; rewrite H in Hp2; cbn in Hp2; lia|].
      rewrite P_text2.dvb_size_spec. destruct (t_data p) as [|b d] eqn:Ep; [cbn; lia|]. rewrite <- Ep in *.
      rewrite app_length, Hp1. unfold selector, e, reserved in *.
      destruct (N.eqb_spec (t_cp t) 0); [cbn [length]; lia|]. destruct (N.leb_spec (t_cp t) 4).
      * destruct (N.eqb_spec (t_cp t) 21); [lia|]. cbn [length]. lia.
      * destruct (t_cp t <=? 15); cbn [length]; destruct (N.eqb_spec (t_cp t) 21); lia.
    + apply (Forall_impl _ (P := fun p => (N.to_nat e - P_text3.slack (t_cp t) <= length (t_data p))%nat)); [|exact Q].
      intros p Hp. unfold P_text3.slack, e in *. destruct (N.eqb_spec (t_cp t) 21); lia.
Qed.
Print Assumptions C24_split.
Theorem C24_split_empty : forall fuel m t size, t_data t = [] -> 3 <= size -> dvb_split fuel m t size = Ok [t].
Proof.
  intros fuel m t size E Hs. unfold dvb_split, subw. rewrite E.
  destruct (N.leb_spec 1 size); [|lia]. destruct (N.leb_spec 3 size); [|lia].
  destruct (t_cp t =? 0); [reflexivity|]. destruct (t_cp t =? UTF8); reflexivity.
Qed.
Print Assumptions C24_split_empty.
(** characters of up to three bytes are kept whole *)
Theorem C24_utf8_whole : forall fuel m s size, Forall is_char s -> Forall bmp s -> s <> [] ->
  N.of_nat (length (utf8 s)) < 2 ^ 63 -> size < 2 ^ 64 -> 4 <= size -> (length (utf8 s) < fuel)%nat ->
  exists chunks, dvb_split fuel m (mkDvb 21 (utf8 s)) size = Ok (map (fun c => mkDvb 21 (utf8 c)) chunks) /\ concat chunks = s.
Proof.
  intros fuel m s size Hc Hb Hne Hl Hs Hr Hf. unfold dvb_split. cbn [t_cp t_data]. change (21 =? 0) with false.
  change (21 =? UTF8) with true. cbv iota. unfold subw. destruct (N.leb_spec 1 size); [|lia]. cbn [bind].
  destruct (Nat.eqb_spec (length (utf8 s)) 0) as [Z|Z].
  { exfalso. destruct s as [|c s]; [congruence|]. inversion Hc as [|? ? Hcc _]; subst.
    destruct (P_text3.utf8_char_shape c Hcc) as (a & tl & E & _). cbn [utf8 flat_map] in Z. rewrite E in Z. discriminate. }
  destruct (P_text3.split_loop_utf8 m s (N.to_nat (size - 1)) Hc Hb Hl) with (fuel := fuel) (s1 := @nil N) (s2 := s) as (chunks & E & C).
  - unfold U64. change (2 ^ 64) with 18446744073709551616 in Hs. lia.
  - lia.
  - reflexivity.
  - assumption.
  - congruence.
  - exists chunks. rewrite N2Nat.id in E. auto.
Qed.
Print Assumptions C24_utf8_whole.
(** a character of four bytes may be cut *)
Theorem C24_utf8_four_bytes_refuted : exists s size p, Forall is_char s /\ 4 <= size /\
  dvb_split 99 Debug (mkDvb 21 (utf8 s)) size = Ok (mkDvb 21 p :: [mkDvb 21 (skipn 1 (utf8 s))]) /\
  dvb_display (mkDvb 21 p) = Ok (Some [0xFFFD]).
Proof.
  exists [0x1F4FA], 4. eexists. split; [constructor; [right; lia|constructor]|]. split; [lia|].
  split; [vm_compute; reflexivity|vm_compute; reflexivity].
Qed.
Print Assumptions C24_utf8_four_bytes_refuted.
(** no room for a byte: the loop never ends *)
Theorem C24_no_room : forall fuel m t, t_cp t <> 21 -> t_data t <> [] ->
  dvb_split fuel m t (reserved (t_cp t)) = Hang.
Proof.
  intros fuel m t Hc Hd. unfold dvb_split, reserved. change UTF8 with 21.
  destruct (Nat.eqb_spec (length (t_data t)) 0) as [Z|Z]; [exfalso; destruct (t_data t); [congruence|discriminate]|].
  destruct (N.eqb_spec (t_cp t) 0) as [E|E]; [cbn [bind]; apply P_text3.split_stuck; assumption|].
  destruct (N.eqb_spec (t_cp t) 21); [contradiction|]. change (subw U64 m 3 3) with (@Ok N 0). cbn [bind].
  apply P_text3.split_stuck; assumption.
Qed.
Print Assumptions C24_no_room.
(** UTF-8: no room for the first character (for a character of four bytes: less than 3 bytes) *)
Theorem C24_no_room_utf8 : forall fuel m c s size, is_char c -> Forall is_char s -> size < 3 ->
  size < N.of_nat (length (utf8_char c)) -> dvb_split fuel m (mkDvb 21 (utf8 (c :: s))) (size + 1) = Hang.
Proof.
  intros fuel m c s size Hc Hs Hz Hl. unfold dvb_split. cbn [t_cp t_data]. change (21 =? 0) with false.
  change (21 =? UTF8) with true. cbv iota. unfold subw. destruct (N.leb_spec 1 (size + 1)); [|lia]. cbn [bind].
  replace (size + 1 - 1) with size by lia.
  destruct (Nat.eqb_spec (length (utf8 (c :: s))) 0) as [Z|Z].
  { exfalso. destruct (P_text3.utf8_char_shape c Hc) as (a & tl & E & _). cbn [utf8 flat_map] in Z. rewrite E in Z. discriminate. }
  apply P_text3.split_stuck_utf8; assumption.
Qed.
Print Assumptions C24_no_room_utf8.
(** sizes below the selector: an abort with overflow checks, else one piece that is too long *)
Theorem C24_underflow : forall fuel m t size, bytes (t_data t) -> t_data t <> [] ->
  N.of_nat (length (t_data t)) < 2 ^ 63 -> size < reserved (t_cp t) -> (2 <= fuel)%nat ->
  dvb_split fuel m t size = match m with Debug => Panic | Release => Ok [t] end.
Proof.
  intros fuel m t size Hb Hd Hl Hs Hf. unfold dvb_split. unfold reserved in Hs. change UTF8 with 21.
  assert (W : forall k, (k = 1 \/ k = 3) -> size < k -> (size0 <- subw U64 m size k ;;
     (if (length (t_data t) =? 0)%nat then Ok [t] else split_loop fuel m t size0 0)) = match m with Debug => Panic | Release => Ok [t] end).
  { intros k Hk Hlt. unfold subw. destruct (N.leb_spec k size); [lia|]. destruct m; [reflexivity|]. cbn [bind].
    destruct (Nat.eqb_spec (length (t_data t)) 0) as [Z|Z]; [reflexivity|].
    rewrite P_text3.split_whole; [destruct t; reflexivity|assumption|assumption|assumption| |assumption].
    unfold U64. change (2 ^ 63) with 9223372036854775808. lia. }
  destruct (t_cp t =? 0); [lia|]. destruct (t_cp t =? 21); apply W; auto.
Qed.
Print Assumptions C24_underflow.
Example C24_ex : dvb_split 99 Debug (mkDvb 21 (utf8 [0x41; 0x20AC; 0x20AC])) 5 =
    Ok [mkDvb 21 (utf8 [0x41; 0x20AC]); mkDvb 21 (utf8 [0x20AC])] /\
  dvb_split 99 Debug (mkDvb 5 [1; 2; 3; 4; 5]) 5 = Ok [mkDvb 5 [1; 2]; mkDvb 5 [3; 4]; mkDvb 5 [5]] /\
  dvb_split 99 Debug (mkDvb 21 (utf8 [0x20AC])) 3 = Hang.
Proof. repeat split; vm_compute; reflexivity. Qed.

(** * C25 *)
Theorem C25_short : forall t size, (length (t_data t) <= size)%nat -> dvb_truncate t size = Ok t.
Proof. exact P_text2.truncate_short. Qed.
Print Assumptions C25_short.
Theorem C25_long : forall t size, (3 <= size < length (t_data t))%nat ->
  dvb_truncate t size = Ok (mkDvb (t_cp t) (firstn (size - 3) (t_data t) ++ [46; 46; 46])).
Proof. exact P_text2.truncate_long. Qed.
Print Assumptions C25_long.
Theorem C25_abort : forall t size, dvb_truncate t size = Panic <-> (size < 3 /\ size < length (t_data t))%nat.
Proof. exact P_text2.truncate_panic. Qed.
Print Assumptions C25_abort.
Theorem C25_utf8_refuted : exists s t, Forall is_char s /\ dvb_truncate (mkDvb 21 (utf8 s)) 5 = Ok t /\
  dvb_display t = Ok (Some [0xFFFD; 46; 46; 46]).
Proof.
  exists [0x20AC; 0x20AC]. eexists. split; [constructor; [left; lia|constructor; [left; lia|constructor]]|]. split; vm_compute; reflexivity.
Qed.
Print Assumptions C25_utf8_refuted.
Example C25_ex : dvb_truncate (mkDvb 21 [72; 101; 108; 108; 111; 44; 32; 119; 111]) 8 = Ok (mkDvb 21 [72; 101; 108; 108; 111; 46; 46; 46]).
Proof. vm_compute. reflexivity. Qed.

(** * C26 *)
Theorem C26_rows : forall a1 a2 a3, In (a1, a2, a3) lang_list ->
  lang_convert (bytes_of a1) = Some (bytes_of a3) /\ lang_convert (bytes_of a2) = Some (bytes_of a1) /\
  lang_convert (bytes_of a3) = Some (bytes_of a1).
Proof. intros a1 a2 a3 H. destruct (P_text2.lang_rows a1 a2 a3 H) as (H1 & H2 & H3 & _). auto. Qed.
Print Assumptions C26_rows.
(** nothing else is converted *)
Theorem C26_only_rows : forall code r, lang_convert code = Some r ->
  exists a1 a2 a3, In (a1, a2, a3) lang_list /\
    ((code = bytes_of a1 /\ r = bytes_of a3) \/ ((code = bytes_of a2 \/ code = bytes_of a3) /\ r = bytes_of a1)).
Proof. exact P_text2.lang_sound. Qed.
Print Assumptions C26_only_rows.
Theorem C26_twice : forall code r, length code = 2%nat -> lang_convert code = Some r -> lang_convert r = Some code.
Proof.
  intros code r Hl H. destruct (P_text2.lang_sound code r H) as (a1 & a2 & a3 & Hi & [[-> ->]|[[-> | ->] ->]]);
    destruct (P_text2.lang_rows a1 a2 a3 Hi) as (H1 & H2 & H3 & L1 & L2 & L3); [assumption|congruence|congruence].
Qed.
Print Assumptions C26_twice.
(** no code belongs to two languages *)
Theorem C26_unambiguous : forall a1 a2 a3 b1 b2 b3, In (a1, a2, a3) lang_list -> In (b1, b2, b3) lang_list ->
  (bytes_of a1 = bytes_of b1 -> bytes_of a3 = bytes_of b3) /\
  ((bytes_of a2 = bytes_of b2 \/ bytes_of a2 = bytes_of b3 \/ bytes_of a3 = bytes_of b2 \/ bytes_of a3 = bytes_of b3) ->
   bytes_of a1 = bytes_of b1).
Proof.
  intros a1 a2 a3 b1 b2 b3 Ha Hb. destruct (C26_rows _ _ _ Ha) as (A1 & A2 & A3).
  destruct (C26_rows _ _ _ Hb) as (B1 & B2 & B3). split; [intros E; congruence|].
  intros [E|[E|[E|E]]]; congruence.
Qed.
Print Assumptions C26_unambiguous.
Example C26_ex : lang_convert (bytes_of "de") = Some (bytes_of "ger") /\ lang_convert (bytes_of "deu") = Some (bytes_of "de") /\
  lang_convert (bytes_of "ger") = Some (bytes_of "de") /\ lang_convert (bytes_of "xx") = None /\ length lang_list = 146%nat.
Proof. repeat split; vm_compute; reflexivity. Qed.
