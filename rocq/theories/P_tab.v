(** Proofs shared by the tables: sections, streams of sections, reception, entry loops. *)
From Verif Require Import Prelude Layout Facts Facts2 S_ts S_crc S_utils S_psi M_bytes M_ts M_crc M_utils M_psi M_drive M_recv M_desc S_desc
  M_tables S_tables P_bytes P_crc P_utils P_psi P_mux P_mux2 P_sect P_mux3 P_desc P_desc2 W_psi W_desc.

(** ** reception *)
Lemma receive_app {T} m (parse : T -> psi -> res T) l1 l2 : forall p t,
  receive m parse p t (l1 ++ l2) = ('(q, u) <- receive m parse p t l1 ;; receive m parse q u l2).
Proof.
  induction l1 as [|x l IH]; intros p t; [reflexivity|]. cbn [app receive].
  destruct (psi_mux m p x); cbn [bind]; [|reflexivity|reflexivity].
  destruct (parse t a); cbn [bind]; [apply IH|reflexivity|reflexivity].
Qed.

Definition quiet {T} (parse : T -> psi -> res T) : Prop :=
  forall t p, psi_check p = Ok false -> p_buffer p <> [] -> parse t p = Ok t.

Lemma snoc_firstn {A} (l : list A) n d : (n < length l)%nat -> firstn (S n) l = firstn n l ++ [nth n l d].
Proof.
  revert n; induction l as [|x l IH]; intros n H; [cbn in H; lia|].
  destruct n as [|n]; [reflexivity|]. cbn [length] in H. cbn [firstn nth app]. rewrite <- IH by lia. reflexivity.
Qed.

Lemma mux_partial m p pid cc s n : section_ok s -> cc < 16 -> (1 <= n < length (section_packets pid cc s))%nat ->
  exists p', mux_all m p (firstn n (section_packets pid cc s)) = Ok p' /\ psi_check p' = Ok false /\ p_buffer p' <> [].
Proof.
  intros Hs Hcc Hn. pose proof Hs as (Hb & Hl & H8 & Hc). rewrite section_packets_length in Hn by assumption.
  destruct (mux_prefix m p pid cc s n Hb Hcc ltac:(lia)) as (p' & H & Hp & Hcc' & st & Hh).
  exists p'. split; [exact H|]. destruct (Nat.eqb_spec n (S (length s / 184))); [lia|].
  destruct Hh as [Hh Hlt]. split.
  - rewrite <- (firstn_skipn (183 + 184 * (n - 1)) s) in Hs.
    apply (holds_partial _ _ _ Hs); [apply skipn_ne; assumption|exact Hh].
  - destruct Hh as [H1 _]. destruct H1 as [_ E]; [rewrite firstn_length; lia|]. rewrite E. intros F.
    apply (f_equal (@length N)) in F. rewrite !firstn_length in F. cbn [length] in F.
    unfold section_length in F. lia.
Qed.

Lemma receive_prefix {T} m (parse : T -> psi -> res T) p t pid cc s : quiet parse -> section_ok s -> cc < 16 ->
  forall n, (n < length (section_packets pid cc s))%nat ->
  exists q, mux_all m p (firstn n (section_packets pid cc s)) = Ok q /\
            receive m parse p t (firstn n (section_packets pid cc s)) = Ok (q, t).
Proof.
  intros Q Hs Hc. induction n as [|n IH]; intros Hn; [exists p; split; reflexivity|].
  destruct (IH ltac:(lia)) as (q & M & R).
  destruct (mux_partial m p pid cc s (S n) Hs Hc ltac:(lia)) as (q' & M' & C' & B').
  exists q'. split; [exact M'|]. set (l := section_packets pid cc s) in *. assert (Hn' : (n < length l)%nat) by lia.
  rewrite (snoc_firstn l n [] Hn') in M' |- *.
  rewrite receive_app, R. rewrite mux_all_app, M in M'. cbn [bind mux_all receive] in *.
  apply bind_inv in M' as (q2 & M' & E). injection E as ->. rewrite M'. cbn [bind]. rewrite (Q t q' C' B'). reflexivity.
Qed.

Definition got (p : psi) (cc : N) (s : list N) : psi := mkPsi s (length s) (p_pid p) ((cc + N.of_nat (length s / 184)) mod 16).

Lemma receive_section {T} m (parse : T -> psi -> res T) p t pid cc s : quiet parse -> section_ok s -> cc < 16 ->
  receive m parse p t (section_packets pid cc s) = (u <- parse t (got p cc s) ;; Ok (got p cc s, u)).
Proof.
  intros Q Hs Hc. pose proof (section_packets_length pid cc s (proj1 Hs)) as L.
  destruct (mux_section m p pid cc s Hs Hc) as [M _].
  set (l := section_packets pid cc s) in *. set (n := (length l - 1)%nat).
  destruct (receive_prefix m parse p t pid cc s Q Hs Hc n ltac:(fold l; lia)) as (q & Mq & R). fold l in Mq, R.
  assert (El : l = firstn n l ++ [nth n l []]).
  { rewrite <- (snoc_firstn l n []) by lia. rewrite firstn_all2 by lia. reflexivity. }
  rewrite El in M |- *. rewrite mux_all_app, Mq in M. rewrite receive_app, R. cbn [bind mux_all receive] in *.
  destruct (psi_mux m q (nth n l [])) as [q2| |]; cbn [bind] in *; try discriminate.
  assert (E : q2 = got p cc s) by (unfold got; congruence). rewrite E. reflexivity.
Qed.

(** parse looks at buffer and size only *)
Definition blind {T} (parse : T -> psi -> res T) : Prop :=
  forall t s n i c i' c', parse t (mkPsi s n i c) = parse t (mkPsi s n i' c').

Fixpoint parse_sections {T} (parse : T -> psi -> res T) (t : T) (ss : list (list N)) : res T :=
  match ss with [] => Ok t | s :: r => u <- parse t (mkPsi s (length s) 0 0) ;; parse_sections parse u r end.

Lemma stream_cons pid cc s r : stream pid cc (s :: r) =
  section_packets pid cc s ++ stream pid ((cc + N.of_nat (length (section_packets pid cc s))) mod 16) r.
Proof. reflexivity. Qed.

Lemma receive_stream {T} m (parse : T -> psi -> res T) pid : quiet parse -> blind parse ->
  forall ss p t cc, Forall section_ok ss -> cc < 16 ->
  forall u, parse_sections parse t ss = Ok u -> exists q, receive m parse p t (stream pid cc ss) = Ok (q, u).
Proof.
  intros Q B. induction ss as [|s r IH]; intros p t cc F Hc u E.
  - injection E as <-. exists p. reflexivity.
  - inversion F; subst. rewrite stream_cons, receive_app, receive_section by assumption.
    cbn [parse_sections] in E. unfold got at 1. rewrite (B t s (length s) _ _ 0 0).
    destruct (parse t (mkPsi s (length s) 0 0)) as [v| |]; cbn [bind] in *; try discriminate.
    apply (IH (got p cc s) v ((cc + N.of_nat (length (section_packets pid cc s))) mod 16)); try assumption.
    apply N.mod_lt. discriminate.
Qed.

(** ** sending *)
Lemma stream_next pid cc s r : cc < 16 ->
  next_cc pid cc (s :: r) = next_cc pid ((cc + N.of_nat (length (section_packets pid cc s))) mod 16) r.
Proof.
  intros H. unfold next_cc. rewrite stream_cons, app_length, Nat2N.inj_add.
  rewrite N.add_mod_idemp_l by discriminate. f_equal. lia.
Qed.
Lemma next_nil pid cc : cc < 16 -> next_cc pid cc [] = cc.
Proof. intros H. unfold next_cc. cbn [stream length]. rewrite N.add_0_r. apply N.mod_small. assumption. Qed.
Lemma next_cc_lt pid cc ss : next_cc pid cc ss < 16.
Proof. apply N.mod_lt. discriminate. Qed.

Lemma send_one m p pid cc dst s : pid < 8192 -> cc < 16 -> p_buffer p = s -> p_size p = length s -> bytes s -> s <> [] ->
  exists q, psi_demux m (with_cc (with_pid p pid) cc) dst = Ok (q, dst ++ concat (section_packets pid cc s)) /\
    p_cc q = (cc + N.of_nat (length (section_packets pid cc s))) mod 16.
Proof.
  intros Hp Hc E Es Hb Hn. assert (0 < length s)%nat by (destruct s; [congruence|cbn; lia]).
  rewrite psi_demux_spec by (cbn [with_cc with_pid p_pid p_cc p_size p_buffer]; try rewrite E; lia).
  cbn [with_cc with_pid p_pid p_cc p_size p_buffer]. rewrite E, Es, firstn_all. eexists. split; [reflexivity|].
  cbn [p_cc]. rewrite section_packets_length by assumption.
  replace (length s + 184)%nat with (length s + 1 * 184)%nat by lia. rewrite Nat.div_add by lia. rewrite Nat.add_1_r. reflexivity.
Qed.

Definition stamp (i last : N) (b : list N) : list N := firstn 6 b ++ [i mod 256; last] ++ skipn 8 b.

Lemma set_67 b i last : (8 <= length b)%nat ->
  (c <- set b 6 (cast U8 i) ;; set c 7 last) = Ok (stamp i last b).
Proof.
  intros H. destruct b as [|b0 [|b1 [|b2 [|b3 [|b4 [|b5 [|b6 [|b7 b]]]]]]]]; cbn [length] in H; try lia. reflexivity.
Qed.
Lemma stamp_length i last b : (8 <= length b)%nat -> length (stamp i last b) = length b.
Proof. intros H. unfold stamp. rewrite !app_length, firstn_length, skipn_length. cbn [length]. lia. Qed.
Lemma stamp_bytes i last b : bytes b -> last < 256 -> bytes (stamp i last b).
Proof.
  intros H L. unfold stamp. apply bytes_app. split; [apply bytes_firstn, H|]. apply bytes_app. split; [|apply bytes_skipn, H].
  repeat constructor; [|assumption]. apply N.mod_lt. discriminate.
Qed.

(** an unfinished section that can be finished *)
Definition raw_section (p : psi) : Prop :=
  p_size p = 0%nat /\ bytes (p_buffer p) /\ (8 <= length (p_buffer p) <= N.to_nat 4094)%nat.

Lemma demux_sections_spec m last pid : pid < 8192 -> last < 256 -> forall l n cc dst, cc < 16 -> Forall raw_section l ->
  let ss := numbered (fun i p => finished (stamp (N.of_nat i) last (p_buffer p))) n l in
  demux_sections m last pid n l cc dst = Ok (next_cc pid cc ss, dst ++ concat (stream pid cc ss)) /\ Forall section_ok ss.
Proof.
  intros Hp Hla. induction l as [|p l IH]; intros n cc dst Hc F ss.
  - subst ss. cbn [numbered demux_sections stream concat]. rewrite app_nil_r, next_nil by assumption. split; [reflexivity|constructor].
  - inversion F as [|? ? (Z & B & L) F']; subst. subst ss. cbn [numbered demux_sections].
    pose proof (set_67 (p_buffer p) (N.of_nat n) last ltac:(lia)) as E6.
    destruct (set (p_buffer p) 6 (cast U8 (N.of_nat n))) as [c| |]; try discriminate. cbn [bind] in E6 |- *. rewrite E6. cbn [bind].
    set (b := stamp (N.of_nat n) last (p_buffer p)). assert (Lb : length b = length (p_buffer p)) by (apply stamp_length; lia).
    assert (Bb : bytes b) by (apply stamp_bytes; assumption).
    rewrite finalize_new by (cbn [with_buffer p_size p_buffer]; try assumption; lia).
    cbn [with_buffer p_size p_buffer p_pid p_cc bind].
    assert (Ok1 : section_ok (finished b)) by (apply finished_ok; [assumption|lia]).
    destruct (send_one m (mkPsi (finished b) (length b + 4) (p_pid p) (p_cc p)) pid cc dst (finished b)) as (q & E & Eq); try assumption.
    { reflexivity. } { cbn [p_size]. rewrite finished_length by lia. reflexivity. } { apply Ok1. }
    { intros E. apply (f_equal (@length N)) in E. rewrite finished_length in E by lia. cbn [length] in E. lia. }
    rewrite E. cbn [bind]. rewrite Eq.
    destruct (IH (S n) ((cc + N.of_nat (length (section_packets pid cc (finished b)))) mod 16)
                (dst ++ concat (section_packets pid cc (finished b)))) as [D K]; [apply N.mod_lt; discriminate|assumption|].
    rewrite D. rewrite stream_cons, concat_app, app_assoc. rewrite (stream_next pid cc) by assumption. split; [reflexivity|].
    constructor; assumption.
Qed.

Lemma demux_table_spec m l pid cc dst : pid < 8192 -> cc < 16 -> l <> [] -> Forall raw_section l ->
  let ss := numbered (fun i p => finished (stamp (N.of_nat i) (N.of_nat (length l - 1) mod 256) (p_buffer p))) 0 l in
  demux_table m l pid cc dst = Ok (next_cc pid cc ss, dst ++ concat (stream pid cc ss)) /\ Forall section_ok ss.
Proof.
  intros Hp Hc Hn F. destruct l as [|p l]; [congruence|]. unfold demux_table. apply demux_sections_spec; try assumption.
  apply N.mod_lt. discriminate.
Qed.

Lemma chop_stream_aux k : forall ls, Forall (fun x => length x = S k) ls -> chop (S k) (concat ls) = ls.
Proof.
  induction 1 as [|x ls H _ IH]; [reflexivity|]. cbn [concat]. rewrite chop_app by (try assumption; lia). rewrite IH. reflexivity.
Qed.

(** ** the long section header *)
Definition head8 (table sb ident version num last : N) : list N :=
  [table; sb; 0; cast U8 (N.shiftr ident 8); cast U8 ident; N.lor (N.lor 0xC0 (N.land (shlw U8 version 1) 0x3E)) 0x01; num; last].

Lemma section_trunc table dvb ident version num last rest :
  section table dvb ident version (num mod 256) (last mod 256) rest = section table dvb ident version num last rest.
Proof.
  unfold section. change 256 with (2 ^ N.of_nat 8).
  assert (E : layout [(8%nat, table); (1%nat, 1); (1%nat, dvb); (2%nat, 3); (12%nat, N.of_nat (length rest + 9)); (16%nat, ident);
     (2%nat, 3); (5%nat, version); (1%nat, 1); (8%nat, num mod 2 ^ N.of_nat 8); (8%nat, last mod 2 ^ N.of_nat 8)] =
    layout [(8%nat, table); (1%nat, 1); (1%nat, dvb); (2%nat, 3); (12%nat, N.of_nat (length rest + 9)); (16%nat, ident);
     (2%nat, 3); (5%nat, version); (1%nat, 1); (8%nat, num); (8%nat, last)]).
  { unfold layout, field_bits. cbn [flat_map fst snd]. rewrite !bits_of_mod. reflexivity. }
  rewrite E. reflexivity.
Qed.

Lemma land_lt n a b : b < 2 ^ n -> N.land a b < 2 ^ n.
Proof.
  intros H. destruct (N.eq_dec (N.land a b) 0) as [E|E].
  - rewrite E. apply N.neq_0_lt_0, N.pow_nonzero. lia.
  - apply N.log2_lt_pow2; [lia|]. eapply N.le_lt_trans; [apply N.log2_land|]. eapply N.le_lt_trans; [apply N.le_min_r|].
    destruct (N.eq_dec b 0) as [->|]; [rewrite N.land_0_r in E; congruence|]. apply N.log2_lt_pow2; lia.
Qed.
Lemma version_byte x : N.lor (N.lor 0xC0 (N.land x 0x3E)) 0x01 < 256.
Proof. apply (lor_lt 8); [apply (lor_lt 8); [reflexivity|apply (land_lt 8); reflexivity]|reflexivity]. Qed.

Lemma head8_layout table dvb ident version num last n : table < 256 -> dvb < 2 -> num < 256 -> last < 256 ->
  firstn 1 (head8 table (176 + 64 * dvb) ident version num last) ++ layout [(4%nat, 11 + 4 * dvb); (12%nat, n)]
    ++ skipn 3 (head8 table (176 + 64 * dvb) ident version num last) =
  layout [(8%nat, table); (1%nat, 1); (1%nat, dvb); (2%nat, 3); (12%nat, n); (16%nat, ident);
     (2%nat, 3); (5%nat, version); (1%nat, 1); (8%nat, num); (8%nat, last)].
Proof.
  intros Ht Hd Hn Hl. unfold head8. cbn [firstn skipn app]. pose proof (version_byte (shlw U8 version 1)) as Hv.
  assert (D : dvb = 0 \/ dvb = 1) by lia. destruct D as [-> | ->]; lay; cbn [app]; bytes_are.
Qed.

Lemma fin_section table dvb ident version num last rest : table < 256 -> dvb < 2 -> num < 256 -> last < 256 ->
  finished (head8 table (176 + 64 * dvb) ident version num last ++ rest) = section table dvb ident version num last rest.
Proof.
  intros Ht Hd Hn Hl. unfold finished, section.
  assert (E : field (head8 table (176 + 64 * dvb) ident version num last ++ rest) 8 4 = 11 + 4 * dvb).
  { unfold head8. cbn [app]. rewrite field_8_4 by lia. dlia. }
  rewrite E. rewrite app_length. change (length (head8 table (176 + 64 * dvb) ident version num last)) with 8%nat.
  replace (8 + length rest + 1)%nat with (length rest + 9)%nat by lia.
  rewrite <- (head8_layout table dvb ident version num last) by assumption.
  rewrite <- !app_assoc. reflexivity.
Qed.

Lemma stamp_section table dvb ident version rest (n : nat) x y last : table < 256 -> dvb < 2 -> last < 256 ->
  finished (stamp (N.of_nat n) last (head8 table (176 + 64 * dvb) ident version x y ++ rest)) =
  section table dvb ident version (N.of_nat n) last rest.
Proof.
  intros Ht Hd Hl. change (stamp (N.of_nat n) last (head8 table (176 + 64 * dvb) ident version x y ++ rest)) with
    (head8 table (176 + 64 * dvb) ident version (N.of_nat n mod 256) last ++ rest).
  rewrite fin_section; try assumption; [|apply N.mod_lt; discriminate].
  rewrite <- (section_trunc _ _ _ _ (N.of_nat n) last), (N.mod_small last) by assumption. reflexivity.
Qed.

(** ** packing entries into sections *)
(** a group is followed by another only if the next item would not have fitted *)
Fixpoint full {A} (w : A -> list N) (limit k k1 : nat) (g : list A) (gs : list (list A)) : Prop :=
  match gs with
  | [] => True
  | g' :: gs' => match g' with x :: _ => (limit < k + length (flat_map w g) + length (w x))%nat | [] => True end /\ full w limit k1 k1 g' gs'
  end.
Lemma full_shift {A} (w : A -> list N) limit k k1 g gs k' g' : (k + length (flat_map w g) = k' + length (flat_map w g'))%nat ->
  full w limit k k1 g gs -> full w limit k' k1 g' gs.
Proof. destruct gs as [|h gs]; [trivial|]. cbn [full]. intros E [H1 H2]. split; [|exact H2]. destruct h; [trivial|lia]. Qed.
Lemma full_crc {A} (w : A -> list N) c limit k1 limit' k1' : (limit + c = limit')%nat -> (k1 + c = k1')%nat ->
  forall gs g k k', (k + c = k')%nat -> full w limit k k1 g gs -> full w limit' k' k1' g gs.
Proof.
  intros E1 E2. induction gs as [|h gs IH]; [trivial|]. cbn [full]. intros g k k' E3 [H1 H2]. split; [|eapply IH; [|exact H2]; lia].
  destruct h; [trivial|lia].
Qed.
Lemma pack_spec {A} limit size (asm : A -> list N -> res (list N)) init (w : A -> list N) n0 : init = Ok n0 ->
  forall items done cur, (forall i b, In i items -> asm i b = Ok (b ++ w i)) -> (forall i, In i items -> size i = length (w i)) ->
  exists g0 gs, items = g0 ++ concat gs /\
    pack limit size asm init items done cur =
      Ok (done ++ with_buffer cur (p_buffer cur ++ flat_map w g0) :: map (fun g => with_buffer n0 (p_buffer n0 ++ flat_map w g)) gs) /\
    Forall (fun g => g <> []) gs /\
    (g0 = [] \/ length (p_buffer cur) + length (flat_map w g0) <= limit)%nat /\
    Forall (fun g => (exists i, g = [i]) \/ (length (p_buffer n0) + length (flat_map w g) <= limit)%nat) gs /\
    full w limit (length (p_buffer cur)) (length (p_buffer n0)) g0 gs.
Proof.
  intros ->. induction items as [|i items IH]; intros done cur Ha Hs.
  - exists [], []. cbn [concat app flat_map map pack]. rewrite app_nil_r. repeat split; try constructor; try reflexivity.
    destruct cur; reflexivity.
  - cbn [pack]. rewrite (Hs i) by (left; reflexivity).
    assert (Ha' : forall j b, In j items -> asm j b = Ok (b ++ w j)) by (intros; apply Ha; right; assumption).
    assert (Hs' : forall j, In j items -> size j = length (w j)) by (intros; apply Hs; right; assumption).
    destruct (Nat.leb_spec (length (p_buffer cur) + length (w i)) limit) as [L|L].
    + rewrite Ha by (left; reflexivity). cbn [bind].
      destruct (IH done (with_buffer cur (p_buffer cur ++ w i)) Ha' Hs') as (g0 & gs & Ei & Ep & Hn & H0 & Hg & Hf).
      exists (i :: g0), gs. rewrite Ep. cbn [with_buffer p_buffer p_size p_pid p_cc flat_map app] in *. rewrite Ei, <- app_assoc.
      repeat split; try assumption.
      * right. rewrite app_length in *. destruct H0 as [-> |H0]; [cbn [flat_map length]; lia|lia].
      * eapply full_shift; [|exact Hf]. cbn [flat_map]. rewrite !app_length. lia.
    + cbn [bind]. rewrite Ha by (left; reflexivity). cbn [bind].
      destruct (IH (done ++ [cur]) (with_buffer n0 (p_buffer n0 ++ w i)) Ha' Hs') as (g0 & gs & Ei & Ep & Hn & H0 & Hg & Hf).
      exists [], ((i :: g0) :: gs). rewrite Ep. cbn [with_buffer p_buffer p_size p_pid p_cc flat_map app concat map] in *.
      rewrite Ei, <- !app_assoc, app_nil_r. cbn [app]. repeat split; try assumption.
      * destruct cur; reflexivity.
      * constructor; [discriminate|assumption].
      * left; reflexivity.
      * constructor; [|assumption]. destruct H0 as [-> |H0]; [left; exists i; reflexivity|right]. cbn [flat_map]. rewrite app_length in H0 |- *. lia.
      * cbn [flat_map length]. lia.
      * eapply full_shift; [|exact Hf]. cbn [flat_map]. rewrite !app_length. lia.
Qed.

(** ** reading entries *)
Lemma entry_u16 h l r : bytes r -> (2 <= h <= length r)%nat ->
  get_u16_at (l ++ r) (length l + (h - 2)) = Ok (field r (8 * h - 16) 16) /\
  N.land (field r (8 * h - 16) 16) 0x0FFF = field r (8 * h - 12) 12.
Proof.
  intros Hb Hh. rewrite u16_at, get_u16_field by (try assumption; lia). split; [do 2 f_equal; lia|].
  rewrite (land_mask _ 12) by reflexivity. change 12 with (N.of_nat 12).
  replace (8 * h - 12)%nat with (8 * h - 16 + 4)%nat by lia. change 16%nat with (4 + 12)%nat at 2.
  symmetry. apply field_low. lia.
Qed.

Fixpoint parse_list {A} (parse : list N -> res A) (recs : list (list N)) : res (list A) :=
  match recs with [] => Ok [] | r :: t => i <- parse r ;; l <- parse_list parse t ;; Ok (i :: l) end.

Lemma items_loop_records {A} h (parse : list N -> res A) tail : (2 <= h)%nat -> bytes tail -> cut_off h tail ->
  forall recs fuel pre items, Forall (fun r => bytes r /\ entry h r) recs -> (length (concat recs ++ tail) < fuel)%nat ->
  items_loop fuel h parse (pre ++ concat recs ++ tail) (length pre) items =
  (l <- parse_list parse recs ;; Ok (items ++ l)).
Proof.
  intros Hh Hbt Hc. induction recs as [|r recs IH]; intros fuel pre items F Hf.
  - cbn [concat app parse_list bind] in *. rewrite app_nil_r. destruct fuel as [|f]; [lia|]. cbn [items_loop].
    rewrite app_length. destruct (Nat.leb_spec (length pre + h) (length pre + length tail)) as [L|L]; [|reflexivity].
    destruct (entry_u16 h pre tail Hbt ltac:(lia)) as [-> E]. cbn [bind]. rewrite E.
    unfold cut_off, entry_len in Hc.
    match goal with |- context [Nat.ltb ?a ?b] => destruct (Nat.ltb_spec a b) as [L2|L2] end; [reflexivity|]. exfalso. lia.
  - inversion F as [|? ? [Hb [He1 He2]] F']; subst. cbn [concat] in *. rewrite <- app_assoc in *. cbn [parse_list].
    destruct fuel as [|f]; [lia|]. cbn [items_loop].
    set (rest := concat recs ++ tail) in *.
    rewrite app_length. rewrite app_length in Hf |- *. destruct (Nat.leb_spec (length pre + h) (length pre + (length r + length rest))) as [L|L]; [|lia].
    assert (Hbr : bytes (r ++ rest)).
    { apply bytes_app. split; [assumption|]. apply bytes_app. split; [|assumption]. clear - F'.
      induction F' as [|x l [Hx _] _ IHl]; [constructor|]. cbn [concat]. apply bytes_app. split; assumption. }
    destruct (entry_u16 h pre (r ++ rest) Hbr ltac:(rewrite app_length; lia)) as [-> E]. cbn [bind]. rewrite E.
    assert (Ef : field (r ++ rest) (8 * h - 12) 12 = field r (8 * h - 12) 12) by (apply field_prefix; lia).
    rewrite Ef. fold (entry_len h r). rewrite <- He2.
    destruct (Nat.ltb_spec (length pre + (length r + length rest)) (length pre + length r)) as [L2|L2]; [lia|].
    rewrite slice_at0, slice_0 by (rewrite app_length; lia). rewrite firstn_app, firstn_all, Nat.sub_diag. cbn [firstn bind].
    rewrite app_nil_r. destruct (parse r) as [i| |]; cbn [bind]; [|reflexivity|reflexivity].
    replace (length pre + length r)%nat with (length (pre ++ r)) by apply app_length.
    rewrite app_assoc. unfold rest. rewrite IH; [|assumption|fold rest; lia].
    destruct (parse_list parse recs); cbn [bind]; try reflexivity. rewrite <- app_assoc. reflexivity.
Qed.

Lemma parse_items_records {A} h (parse : list N -> res A) recs tail items : (2 <= h)%nat -> bytes tail -> cut_off h tail ->
  Forall (fun r => bytes r /\ entry h r) recs ->
  parse_items h parse (concat recs ++ tail) items = (l <- parse_list parse recs ;; Ok (items ++ l)).
Proof.
  intros Hh Hb Hc F. unfold parse_items. apply (items_loop_records h parse tail Hh Hb Hc recs _ [] items F). cbn [app]. lia.
Qed.

(** every byte string splits that way *)
Lemma entries_exist h l : (2 <= h)%nat -> exists recs tail, l = concat recs ++ tail /\ cut_off h tail /\ Forall (entry h) recs.
Proof.
  intros Hh. remember (length l) as n eqn:En. revert l En. induction n as [n IH] using lt_wf_ind. intros l ->.
  destruct (le_lt_dec h (length l)) as [L|L]; [|exists [], l; repeat split; [left; assumption|constructor]].
  destruct (le_lt_dec (entry_len h l) (length l)) as [L2|L2]; [|exists [], l; repeat split; [right; assumption|constructor]].
  set (k := entry_len h l) in *. assert (hk : (h <= k)%nat) by (unfold k, entry_len; lia).
  destruct (IH (length (skipn k l)) ltac:(rewrite skipn_length; lia) (skipn k l) eq_refl) as (recs & tail & E & C & F).
  exists (firstn k l :: recs), tail. cbn [concat]. rewrite <- app_assoc, <- E, firstn_skipn. repeat split; [assumption|].
  constructor; [|assumption]. unfold entry. rewrite firstn_length. split; [lia|].
  replace (Nat.min k (length l)) with k by lia. unfold entry_len. unfold k at 1. unfold entry_len. do 2 f_equal.
  rewrite <- (firstn_skipn k l) at 1. apply field_prefix. rewrite firstn_length. lia.
Qed.

Lemma parse_list_ok {A} (parse : list N -> res A) (rd : list N -> A -> Prop) recs items :
  Forall2 rd recs items -> (forall r i, In r recs -> rd r i -> parse r = Ok i) -> parse_list parse recs = Ok items.
Proof.
  induction 1 as [|r i recs items H _ IH]; intros Hp; [reflexivity|]. cbn [parse_list].
  rewrite (Hp r i) by (try assumption; left; reflexivity). cbn [bind]. rewrite IH by (intros; apply Hp; [right|]; assumption). reflexivity.
Qed.

Lemma concat_bytes (recs : list (list N)) : bytes (concat recs) -> Forall bytes recs.
Proof.
  induction recs as [|r recs IH]; intros H; [constructor|]. cbn [concat] in H. apply bytes_app in H as [H1 H2].
  constructor; [assumption|]. apply IH, H2.
Qed.

Lemma entries_parse {A} h (parse : list N -> res A) (rd : list N -> A -> Prop) l old items : (2 <= h)%nat -> bytes l ->
  (forall r i, bytes r -> entry h r -> rd r i -> parse r = Ok i) -> entries_read h rd l items ->
  parse_items h parse l old = Ok (old ++ items).
Proof.
  intros Hh Hb Hp (recs & tail & E & C & F & F2). subst l. apply bytes_app in Hb as [Hb1 Hb2].
  assert (FB : Forall (fun r => bytes r /\ entry h r) recs).
  { apply concat_bytes in Hb1. rewrite Forall_forall in *. intros r Hr. split; [apply Hb1|apply F]; assumption. }
  rewrite parse_items_records by assumption.
  rewrite (parse_list_ok parse rd recs items); [reflexivity|assumption|].
  intros r i Hr. rewrite Forall_forall in FB. destruct (FB r Hr). apply Hp; assumption.
Qed.
