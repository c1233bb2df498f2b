(** Proofs about Psi::finalize, check, eq and demux (M_psi). *)
From Verif Require Import Prelude Layout Facts S_ts S_crc S_psi M_bytes M_ts M_crc M_psi P_bytes P_ts P_crc.

Global Arguments Nat.modulo : simpl never.
Global Arguments Nat.div : simpl never.

(** ** lists *)
Lemma repeat_S {A} (x : A) n : repeat x (S n) = x :: repeat x n.
Proof. reflexivity. Qed.

Lemma skipn_skipn {A} x : forall y (l : list A), skipn x (skipn y l) = skipn (x + y) l.
Proof.
  intros y. induction y as [|y IH]; intros l; [rewrite Nat.add_0_r; reflexivity|].
  destruct l as [|a l]; [rewrite !skipn_nil; reflexivity|].
  rewrite Nat.add_succ_r. cbn [skipn]. apply IH.
Qed.

Lemma chop_fuel_enough n l : (0 < n)%nat -> forall f, (length l <= f)%nat -> chop_fuel f n l = chop n l.
Proof.
  intros Hn. assert (G : forall k l, (length l <= k)%nat -> forall f1 f2, (length l <= f1)%nat -> (length l <= f2)%nat ->
    chop_fuel f1 n l = chop_fuel f2 n l).
  { clear l. induction k as [|k IH]; intros l Hk f1 f2 H1 H2.
    - destruct l; [|cbn in Hk; lia]. destruct f1, f2; reflexivity.
    - destruct l as [|x l]; [destruct f1, f2; reflexivity|].
      destruct f1 as [|f1]; [cbn in H1; lia|]. destruct f2 as [|f2]; [cbn in H2; lia|].
      cbn [chop_fuel]. f_equal.
      assert (L : (length (skipn n (x :: l)) <= length l)%nat).
      { rewrite skipn_length. cbn [length]. lia. }
      cbn [length] in *. apply IH; lia. }
  intros f Hf. apply (G (length l)); lia.
Qed.

Lemma chop_nil n : chop n [] = [].
Proof. reflexivity. Qed.
Lemma chop_step n l : (0 < n)%nat -> l <> [] -> chop n l = firstn n l :: chop n (skipn n l).
Proof.
  intros Hn Hl. destruct l as [|x l]; [congruence|]. unfold chop at 1. cbn [length chop_fuel]. f_equal.
  apply chop_fuel_enough; [exact Hn|]. rewrite skipn_length. cbn [length]. lia.
Qed.
Lemma chop_app n a b : (0 < n)%nat -> length a = n -> chop n (a ++ b) = a :: chop n b.
Proof.
  intros Hn Ha. rewrite chop_step; [|exact Hn|destruct a; cbn in *; [lia|discriminate]].
  rewrite firstn_app, skipn_app, Ha, Nat.sub_diag. cbn [firstn skipn].
  rewrite <- Ha, firstn_all, skipn_all, app_nil_r. reflexivity.
Qed.
Lemma chop_one n a : (0 < n)%nat -> length a = n -> chop n a = [a].
Proof. intros Hn Ha. rewrite <- (app_nil_r a) at 1. rewrite chop_app by assumption. reflexivity. Qed.
Lemma chop_concat n l : (0 < n)%nat -> concat (chop n l) = l.
Proof.
  intros Hn. assert (G : forall k l, (length l <= k)%nat -> concat (chop n l) = l).
  { clear l. induction k as [|k IH]; intros l Hk; [destruct l; [reflexivity|cbn in Hk; lia]|].
    destruct l as [|x l]; [reflexivity|]. rewrite chop_step by (try exact Hn; discriminate).
    cbn [concat]. rewrite IH; [apply firstn_skipn|]. rewrite skipn_length. cbn [length] in *. lia. }
  apply (G (length l)). lia.
Qed.

Lemma pad184_full a b : length a = 184%nat -> pad184 (a ++ b) = a ++ pad184 b.
Proof.
  intros Ha. unfold pad184. rewrite app_length, Ha, <- app_assoc. do 3 f_equal.
  replace (184 + length b)%nat with (length b + 1 * 184)%nat by lia. rewrite Nat.mod_add by discriminate. reflexivity.
Qed.
Lemma pad184_short a : (0 < length a <= 184)%nat -> pad184 a = a ++ repeat 255 (184 - length a).
Proof.
  intros Ha. unfold pad184. do 2 f_equal. destruct (Nat.eq_dec (length a) 184) as [E|E].
  - rewrite E. reflexivity.
  - rewrite (Nat.mod_small (length a)) by lia. apply Nat.mod_small. lia.
Qed.
Lemma pad184_length a : (length (pad184 a) mod 184 = 0)%nat.
Proof.
  unfold pad184. rewrite app_length, repeat_length.
  pose proof (Nat.mod_upper_bound (length a) 184 ltac:(discriminate)).
  rewrite (Nat.div_mod (length a) 184) at 1 by discriminate.
  set (r := (length a mod 184)%nat) in *. set (q := (length a / 184)%nat).
  destruct (Nat.eq_dec r 0) as [->|Hr].
  - change ((184 - 0) mod 184)%nat with 0%nat. replace (184 * q + 0 + 0)%nat with (q * 184)%nat by lia. apply Nat.mod_mul. discriminate.
  - rewrite (Nat.mod_small (184 - r)) by lia.
    replace (184 * q + r + (184 - r))%nat with ((q + 1) * 184)%nat by lia. apply Nat.mod_mul. discriminate.
Qed.

(** ** one packet header written over zeros *)
Lemma ts_header_length sync tei pusi prio pid tsc af pl cc :
  length (ts_header sync tei pusi prio pid tsc af pl cc) = 4%nat.
Proof. reflexivity. Qed.

Definition hdr (m : mode) (pid cc : N) (first : bool) (t : list N) : res (list N) :=
  t <- set t 0 0x47 ;; t <- set_pid m t pid ;; t <- set_payload_1 t ;; t <- set_cc m t cc ;;
  if first then set_pusi_1 t else Ok t.

Lemma hdr_spec m pid cc first rest : pid < 8192 -> cc < 16 ->
  hdr m pid cc first (0 :: 0 :: 0 :: 0 :: rest) =
  Ok (ts_header 0x47 0 (if first then 1 else 0) 0 pid 0 0 1 cc ++ rest).
Proof.
  intros Hp Hc. unfold hdr.
  change (set (0 :: 0 :: 0 :: 0 :: rest) 0 71) with (Ok (ts_header 0x47 0 0 0 0 0 0 0 0 ++ rest)).
  cbn [bind]. rewrite set_pid_spec by assumption. cbn [bind].
  rewrite set_payload_1_spec. cbn [bind]. rewrite set_cc_spec by assumption. cbn [bind].
  destruct first; [apply set_pusi_1_spec|reflexivity].
Qed.

Lemma hdr_debug_panic pid cc first t : 8192 <= pid \/ 16 <= cc -> hdr Debug pid cc first t = Panic \/ (length t < 4)%nat.
Proof.
  intros H. destruct (Nat.ltb_spec (length t) 4) as [L|L]; [right; exact L|left].
  destruct t as [|a [|b [|c [|d t]]]]; try (cbn in L; lia).
  unfold hdr. cbn [set Nat.ltb Nat.leb length firstn skipn app bind].
  unfold set_pid. destruct (N.ltb_spec pid 8192) as [P|P]; [|reflexivity].
  cbn [dassert bind get nth_error set Nat.ltb Nat.leb length firstn skipn app].
  unfold set_payload_1. cbn [bind get nth_error set Nat.ltb Nat.leb length firstn skipn app].
  unfold set_cc. destruct (N.ltb_spec cc 16); [lia|reflexivity].
Qed.

(** folding the five in-place writes into one *)
Lemma hdr_fold m pid cc (first : bool) pre t :
  (dst <- set (pre ++ t) (length pre) 0x47 ;;
   dst <- on_from dst (length pre) (fun t => set_pid m t pid) ;;
   dst <- on_from dst (length pre) set_payload_1 ;;
   dst <- on_from dst (length pre) (fun t => set_cc m t cc) ;;
   if first then on_from dst (length pre) set_pusi_1 else Ok dst) =
  (t' <- hdr m pid cc first t ;; Ok (pre ++ t')).
Proof.
  unfold hdr. rewrite set_app_r. rewrite !bind_assoc. destruct (set t 0 71) as [t1| |]; [|reflexivity|reflexivity]. cbn [bind].
  rewrite on_from_app, !bind_assoc. destruct (set_pid m t1 pid) as [t2| |]; [|reflexivity|reflexivity]. cbn [bind].
  rewrite on_from_app, !bind_assoc. destruct (set_payload_1 t2) as [t3| |]; [|reflexivity|reflexivity]. cbn [bind].
  rewrite on_from_app, !bind_assoc. destruct (set_cc m t3 cc) as [t4| |]; [|reflexivity|reflexivity]. cbn [bind].
  destruct first; [|reflexivity]. apply on_from_app.
Qed.

(** ** one round of the loop *)
Lemma cc_next m cc : cc < 16 -> (c1 <- addw U8 m cc 1 ;; Ok (N.land c1 15)) = Ok ((cc + 1) mod 16).
Proof.
  intros H. rewrite addw_ok by (unfold U8; lia). cbn [bind]. f_equal.
  change 15 with (N.ones 4). rewrite N.land_ones. reflexivity.
Qed.

Lemma copy_app {A} (pre z z2 src : list A) : length z = length src ->
  copy_from (pre ++ z ++ z2) (length pre) (length pre + length src) src = Ok (pre ++ src ++ z2).
Proof. intros H. apply copy_from_ok; lia. Qed.

Lemma repeat_add {A} (x : A) a b : repeat x (a + b) = repeat x a ++ repeat x b.
Proof. apply repeat_app. Qed.

Lemma loop_round fuel m p cc pre psi_skip n :
  let first := (psi_skip =? 0)%nat in
  let hl := if first then 5%nat else 4%nat in
  let len := Nat.min (p_size p - psi_skip) (188 - hl) in
  p_pid p < 8192 -> cc < 16 -> (psi_skip < p_size p <= length (p_buffer p))%nat ->
  demux_loop (S fuel) m p cc (pre ++ repeat 0 (188 + n)) psi_skip (length pre) =
  demux_loop fuel m p ((cc + 1) mod 16)
    ((pre ++ ts_header 0x47 0 (if first then 1 else 0) 0 (p_pid p) 0 0 1 cc ++ (if first then [0] else []) ++
      firstn len (skipn psi_skip (p_buffer p))) ++ repeat 0 (188 - hl - len + n)) (psi_skip + len)
    (length pre + hl + len).
Proof.
  cbv zeta. intros Hp Hc Hs. cbn [demux_loop].
  destruct (Nat.ltb_spec psi_skip (p_size p)); [|lia].
  set (first := (psi_skip =? 0)%nat).
  (* regroup the header writes *)
  match goal with |- ?L = _ => 
    transitivity (
     dst <- (dst <- set (pre ++ repeat 0 (188 + n)) (length pre) 0x47 ;;
       dst <- on_from dst (length pre) (fun t => set_pid m t (p_pid p)) ;;
       dst <- on_from dst (length pre) set_payload_1 ;;
       dst <- on_from dst (length pre) (fun t => set_cc m t cc) ;;
       if first then on_from dst (length pre) set_pusi_1 else Ok dst) ;;
     (let hl := if first then 5%nat else 4%nat in
      let len := Nat.min (p_size p - psi_skip) (188 - hl) in
      src <- slice (p_buffer p) psi_skip (psi_skip + len) ;;
      dst <- copy_from dst (length pre + hl) (length pre + hl + len) src ;;
      demux_loop fuel m p ((cc + 1) mod 16) dst (psi_skip + len) (length pre + hl + len))) end.
  { rewrite !bind_assoc. destruct (set (pre ++ repeat 0 (188 + n)) (length pre) 71) as [d1| |]; [|reflexivity|reflexivity].
    cbn [bind]. rewrite !bind_assoc. destruct (on_from d1 _ _) as [d2| |]; [|reflexivity|reflexivity].
    cbn [bind]. rewrite !bind_assoc. destruct (on_from d2 _ _) as [d3| |]; [|reflexivity|reflexivity].
    cbn [bind]. rewrite !bind_assoc. destruct (on_from d3 _ _) as [d4| |]; [|reflexivity|reflexivity].
    cbn [bind]. rewrite addw_ok by (unfold U8; lia). cbn [bind].
    replace (N.land (cc + 1) 15) with ((cc + 1) mod 16) by (change 15 with (N.ones 4); rewrite N.land_ones; reflexivity).
    reflexivity. }
  rewrite hdr_fold.
  assert (Z : repeat 0 (188 + n) = 0 :: 0 :: 0 :: 0 :: repeat 0 (184 + n)) by reflexivity.
  rewrite Z, hdr_spec by assumption. cbn [bind].
  set (h := ts_header _ _ _ _ _ _ _ _ _). assert (Lh : length h = 4%nat) by reflexivity.
  set (hl := if first then 5%nat else 4%nat). set (len := Nat.min (p_size p - psi_skip) (188 - hl)).
  cbv zeta. fold len.
  assert (Sl : slice (p_buffer p) psi_skip (psi_skip + len) = Ok (firstn len (skipn psi_skip (p_buffer p)))).
  { unfold slice. destruct (Nat.leb_spec psi_skip (psi_skip + len)); [|lia].
    destruct (Nat.leb_spec (psi_skip + len) (length (p_buffer p))); [|unfold len in *; lia].
    cbn [andb]. do 3 f_equal. lia. }
  rewrite Sl. cbn [bind].
  set (src := firstn len (skipn psi_skip (p_buffer p))).
  assert (Ls : length src = len).
  { unfold src. rewrite firstn_length, skipn_length. unfold len. lia. }
  set (z := if first then [0] else @nil N).
  assert (Lz : (4 + length z = hl)%nat) by (unfold z, hl; destruct first; reflexivity).
  assert (E : pre ++ h ++ repeat 0 (184 + n) = (pre ++ h ++ z) ++ repeat 0 len ++ repeat 0 (188 - hl - len + n)).
  { assert (Hlen : (len <= 188 - hl)%nat) by apply Nat.le_min_r.
    assert (Hhl : (hl <= 5)%nat) by (unfold hl; destruct first; lia).
    replace (184 + n)%nat with (length z + (len + (188 - hl - len + n)))%nat by (clearbody len hl z; lia).
    rewrite !repeat_add. replace (repeat 0 (length z)) with z by (unfold z; destruct first; reflexivity).
    rewrite <- !app_assoc. reflexivity. }
  rewrite E.
  replace (length pre + hl)%nat with (length (pre ++ h ++ z)) by (rewrite !app_length; lia).
  rewrite <- Ls. rewrite copy_app by (rewrite repeat_length; reflexivity). cbn [bind].
  rewrite <- !app_assoc. reflexivity.
Qed.

(** ** the whole loop *)
Lemma loop_end fuel m p cc dst s d : (p_size p <= s)%nat -> demux_loop (S fuel) m p cc dst s d = Ok (dst, d, cc).
Proof. intros H. cbn [demux_loop]. destruct (Nat.ltb_spec s (p_size p)); [lia|reflexivity]. Qed.

Definition packet_count (n : nat) : nat := ((n + 183) / 184)%nat.

Lemma packet_count_short n : (0 < n <= 184)%nat -> packet_count n = 1%nat.
Proof. intros H. unfold packet_count. symmetry. apply (Nat.div_unique _ _ 1%nat (n - 1)); lia. Qed.
Lemma packet_count_long n : (184 < n)%nat -> packet_count n = S (packet_count (n - 184)).
Proof.
  intros H. unfold packet_count. replace (n + 183)%nat with ((n - 184 + 183) + 1 * 184)%nat by lia.
  rewrite Nat.div_add by discriminate. lia.
Qed.

(** continuation packets *)
Lemma loop_cont m p : p_pid p < 8192 -> (p_size p <= length (p_buffer p))%nat ->
  forall fuel rest skip cc pre, cc < 16 ->
  rest = skipn skip (firstn (p_size p) (p_buffer p)) -> (0 < skip < p_size p)%nat -> (length rest < fuel)%nat ->
  exists X z cc', 
    demux_loop fuel m p cc (pre ++ repeat 0 (188 * packet_count (length rest))) skip (length pre)
      = Ok ((pre ++ X) ++ repeat 0 z, length (pre ++ X), cc') /\
    (z < 184)%nat /\ X ++ repeat 255 z = concat (number_packets (p_pid p) cc false (chop 184 (pad184 rest))) /\
    cc' = (cc + N.of_nat (packet_count (length rest))) mod 16.
Proof.
  intros Hp Hb. induction fuel as [|fuel IH]; intros rest skip cc pre Hc Hr Hs Hf; [lia|].
  assert (Lr : length rest = (p_size p - skip)%nat).
  { rewrite Hr, skipn_length, firstn_length. lia. }
  assert (Fr : forall k, (k <= length rest)%nat -> firstn k (skipn skip (p_buffer p)) = firstn k rest).
  { intros k Hk. rewrite Hr, skipn_firstn_comm, firstn_firstn. f_equal. lia. }
  destruct (Nat.leb_spec (length rest) 184) as [Hl|Hl].
  - rewrite (packet_count_short (length rest)) by lia.
    change (188 * 1)%nat with (188 + 0)%nat.
    rewrite loop_round by (try assumption; lia).
    replace (skip =? 0)%nat with false by (symmetry; apply Nat.eqb_neq; lia).
    change (188 - 4)%nat with 184%nat. replace (Nat.min (p_size p - skip) 184) with (length rest) by lia.
    rewrite Fr, firstn_all by lia. destruct fuel as [|fuel]; [lia|].
    rewrite loop_end by lia.
    set (h := ts_header _ _ _ _ _ _ _ _ _).
    exists (h ++ rest), (184 - length rest)%nat, ((cc + 1) mod 16).
    split; [|split; [lia|split]].
    + rewrite Nat.add_0_r. f_equal. f_equal. f_equal. rewrite !app_length. change (length h) with 4%nat. lia.
    + rewrite pad184_short by lia. rewrite chop_one by (rewrite ?app_length, ?repeat_length; lia).
      cbn [number_packets concat]. rewrite app_nil_r, <- app_assoc. reflexivity.
    + reflexivity.
  - rewrite (packet_count_long (length rest)) by lia.
    replace (188 * S (packet_count (length rest - 184)))%nat with (188 + 188 * packet_count (length rest - 184))%nat by lia.
    rewrite loop_round by (try assumption; lia).
    replace (skip =? 0)%nat with false by (symmetry; apply Nat.eqb_neq; lia).
    change (188 - 4)%nat with 184%nat. replace (Nat.min (p_size p - skip) 184) with 184%nat by lia.
    rewrite Fr by lia. rewrite Nat.sub_diag. change (0 + 188 * packet_count (length rest - 184))%nat with (188 * packet_count (length rest - 184))%nat.
    set (h := ts_header _ _ _ _ _ _ _ _ _).
    assert (L2 : length (skipn 184 rest) = (length rest - 184)%nat) by apply skipn_length.
    rewrite <- L2.
    assert (L3 : length (firstn 184 rest) = 184%nat) by (rewrite firstn_length; lia).
    replace (length pre + 4 + 184)%nat with (length (pre ++ h ++ [] ++ firstn 184 rest)).
    2: { rewrite !app_length, L3. change (length h) with 4%nat. cbn [length]. lia. }
    destruct (IH (skipn 184 rest) (skip + 184)%nat ((cc + 1) mod 16) (pre ++ h ++ [] ++ firstn 184 rest)) as (X & z & cc' & E & Hz & HX & HC).
    { apply N.mod_lt. discriminate. }
    { rewrite Hr, skipn_skipn. f_equal. lia. }
    { lia. }
    { lia. }
    rewrite E. exists (h ++ firstn 184 rest ++ X), z, cc'. split; [|split; [exact Hz|split]].
    + cbn [app]. rewrite <- !app_assoc. reflexivity.
    + rewrite <- (firstn_skipn 184 rest) at 2. rewrite pad184_full, chop_app by (try exact L3; lia).
      cbn [number_packets concat]. rewrite <- HX. rewrite <- !app_assoc. reflexivity.
    + rewrite HC. rewrite N.add_mod_idemp_l by discriminate. f_equal. lia.
Qed.

(** all packets of a section *)
Lemma demux_loop_spec m p pre : p_pid p < 8192 -> p_cc p < 16 -> (0 < p_size p <= length (p_buffer p))%nat ->
  let s := firstn (p_size p) (p_buffer p) in
  exists X z,
    demux_loop (S (p_size p)) m p (p_cc p) (pre ++ repeat 0 (188 * packet_count (S (length s)))) 0 (length pre)
      = Ok ((pre ++ X) ++ repeat 0 z, length (pre ++ X), (p_cc p + N.of_nat (packet_count (S (length s)))) mod 16) /\
    (z < 184)%nat /\ X ++ repeat 255 z = concat (section_packets (p_pid p) (p_cc p) s).
Proof.
  intros Hp Hc Hs s. assert (Ls : length s = p_size p) by (unfold s; rewrite firstn_length; lia).
  assert (Fr : forall k, (k <= length s)%nat -> firstn k (skipn 0 (p_buffer p)) = firstn k s).
  { intros k Hk. unfold s. rewrite firstn_firstn. cbn [skipn]. f_equal. lia. }
  unfold section_packets.
  destruct (Nat.leb_spec (length s) 183) as [Hl|Hl].
  - rewrite (packet_count_short (S (length s))) by lia.
    change (188 * 1)%nat with (188 + 0)%nat. rewrite loop_round by (try assumption; lia). cbn [Nat.eqb].
    change (188 - 5)%nat with 183%nat. rewrite Nat.sub_0_r. replace (Nat.min (p_size p) 183) with (length s) by lia.
    rewrite Fr, firstn_all by lia. destruct (p_size p) as [|k] eqn:Ek; [lia|].
    rewrite loop_end by lia. set (h := ts_header _ _ _ _ _ _ _ _ _).
    exists (h ++ [0] ++ s), (183 - length s)%nat. split; [|split; [lia|]].
    + rewrite Nat.add_0_r. do 2 f_equal. f_equal. rewrite !app_length. change (length h) with 4%nat. cbn [length]. lia.
    + rewrite pad184_short by (cbn [length]; lia). rewrite chop_one by (rewrite ?app_length, ?repeat_length; cbn [length]; lia).
      cbn [number_packets concat]. rewrite app_nil_r. cbn [length app]. rewrite <- app_assoc. reflexivity.
  - rewrite (packet_count_long (S (length s))) by lia.
    replace (188 * S (packet_count (S (length s) - 184)))%nat with (188 + 188 * packet_count (S (length s) - 184))%nat by lia.
    rewrite loop_round by (try assumption; lia). cbn [Nat.eqb].
    change (188 - 5)%nat with 183%nat. rewrite Nat.sub_0_r. replace (Nat.min (p_size p) 183) with 183%nat by lia.
    rewrite Fr by lia. rewrite Nat.sub_diag. change (0 + ?x)%nat with x.
    set (h := ts_header _ _ _ _ _ _ _ _ _).
    assert (L2 : length (skipn 183 s) = (S (length s) - 184)%nat) by (rewrite skipn_length; lia).
    rewrite <- L2.
    assert (L3 : length (firstn 183 s) = 183%nat) by (rewrite firstn_length; lia).
    replace (length pre + 5 + 183)%nat with (length (pre ++ h ++ [0] ++ firstn 183 s)).
    2: { rewrite !app_length, L3. change (length h) with 4%nat. cbn [length]. lia. }
    assert (Q : s = firstn 183 s ++ skipn 183 s) by (symmetry; apply firstn_skipn).
    destruct (Nat.eq_dec (length s) 183) as [E183|N183]; [lia|].
    destruct (loop_cont m p Hp ltac:(lia) (p_size p) (skipn 183 s) 183 ((p_cc p + 1) mod 16) (pre ++ h ++ [0] ++ firstn 183 s)) as (X & z & cc' & E & Hz & HX & HC).
    { apply N.mod_lt. discriminate. }
    { reflexivity. }
    { lia. }
    { lia. }
    cbn [Nat.add]. rewrite E. exists (h ++ [0] ++ firstn 183 s ++ X), z. split; [|split; [exact Hz|]].
    + f_equal. f_equal; [f_equal|].
      * rewrite <- !app_assoc. reflexivity.
      * rewrite !app_length. lia.
      * rewrite HC. rewrite N.add_mod_idemp_l by discriminate. f_equal. lia.
    + change (0 :: s) with ([0] ++ s). rewrite Q at 2. rewrite (app_assoc [0] (firstn 183 s) (skipn 183 s)).
      rewrite pad184_full, chop_app by (try (rewrite app_length, L3; reflexivity); lia).
      cbn [number_packets concat]. rewrite <- HX. rewrite <- !app_assoc. reflexivity.
Qed.

Lemma slice_0 {A} (l : list A) n : (n <= length l)%nat -> slice l 0 n = Ok (firstn n l).
Proof.
  intros H. unfold slice. cbn [Nat.leb]. destruct (Nat.leb_spec n (length l)); [|lia]. cbn [andb skipn].
  rewrite Nat.sub_0_r. reflexivity.
Qed.

Lemma psi_demux_spec m p dst : p_pid p < 8192 -> p_cc p < 16 -> (0 < p_size p <= length (p_buffer p))%nat ->
  let s := firstn (p_size p) (p_buffer p) in
  psi_demux m p dst =
  Ok (with_cc p ((p_cc p + N.of_nat ((p_size p + 184) / 184)) mod 16), dst ++ concat (section_packets (p_pid p) (p_cc p) s)).
Proof.
  intros Hp Hc Hs s. assert (Ls : length s = p_size p) by (unfold s; rewrite firstn_length; lia).
  unfold psi_demux.
  assert (Ec : ((p_size p + 1 + 183) / 184)%nat = packet_count (S (length s))).
  { unfold packet_count. rewrite Ls. f_equal. lia. }
  rewrite Ec. rewrite resize_grow by lia.
  replace (length dst + 188 * packet_count (S (length s)) - length dst)%nat with (188 * packet_count (S (length s)))%nat by lia.
  destruct (demux_loop_spec m p dst Hp Hc Hs) as (X & z & E & Hz & HX). fold s in E, HX.
  rewrite E. cbn [bind]. rewrite app_length at 1. rewrite repeat_length.
  unfold sub_idx. destruct (Nat.leb_spec (length (dst ++ X)) (length (dst ++ X) + z)); [|lia]. cbn [bind].
  replace (length (dst ++ X) + z - length (dst ++ X))%nat with z by lia.
  assert (Ecc : (p_cc p + N.of_nat (packet_count (S (length s)))) mod 16 = (p_cc p + N.of_nat ((p_size p + 184) / 184)) mod 16).
  { unfold packet_count. rewrite Ls. do 4 f_equal. lia. }
  rewrite Ecc, <- HX.
  destruct (Nat.ltb_spec 0 z) as [Hz0|Hz0].
  - rewrite slice_0 by (cbn; lia). cbn [bind].
    assert (F : firstn z FILL_PACKET = repeat 255 z).
    { unfold FILL_PACKET. replace 188%nat with (z + (188 - z))%nat by lia. rewrite repeat_add.
      rewrite firstn_app, repeat_length, Nat.sub_diag. cbn [firstn]. rewrite app_nil_r.
      rewrite <- (repeat_length 255 z) at 1. apply firstn_all. }
    rewrite F. rewrite <- (app_nil_r (repeat 0 z)).
    replace (length ((dst ++ X) ++ repeat 0 z ++ [])) with (length (dst ++ X) + length (repeat 255%N z))%nat.
    2: { rewrite app_nil_r, !app_length, !repeat_length. lia. }
    rewrite copy_app by (rewrite !repeat_length; reflexivity). cbn [bind].
    rewrite app_nil_r, <- app_assoc. reflexivity.
  - replace z with 0%nat by lia. cbn [repeat bind]. rewrite !app_nil_r. reflexivity.
Qed.

Lemma psi_demux_empty m p dst : p_size p = 0%nat -> psi_demux m p dst = Ok (p, dst ++ repeat 255 188).
Proof.
  intros H. unfold psi_demux. rewrite H. change ((0 + 1 + 183) / 184)%nat with 1%nat.
  cbn [demux_loop]. rewrite H. cbn [Nat.ltb Nat.leb bind].
  rewrite resize_grow by lia. replace (length dst + 188 * 1 - length dst)%nat with 188%nat by lia.
  rewrite app_length, repeat_length. unfold sub_idx. destruct (Nat.leb_spec (length dst) (length dst + 188)); [|lia].
  cbn [bind]. replace (length dst + 188 - length dst)%nat with 188%nat by lia.
  change (0 <? 188)%nat with true. cbn iota. rewrite slice_0 by (cbn; lia). cbn [bind].
  change (firstn 188 FILL_PACKET) with (repeat 255 188).
  pose proof (copy_app dst (repeat 0 188) [] (repeat 255 188) eq_refl) as C. rewrite !app_nil_r in C.
  rewrite repeat_length in C. rewrite C. cbn [bind]. destruct p. reflexivity.
Qed.

(** a section longer than its buffer, an invalid pid or counter *)
Lemma psi_demux_debug_panic p dst : (0 < p_size p)%nat -> 8192 <= p_pid p \/ 16 <= p_cc p ->
  psi_demux Debug p dst = Panic.
Proof.
  intros Hs H. unfold psi_demux. rewrite resize_grow by lia.
  set (n := ((p_size p + 1 + 183) / 184)%nat).
  assert (Hn : (0 < n)%nat) by (apply Nat.div_str_pos; lia).
  replace (length dst + 188 * n - length dst)%nat with (188 * n)%nat by lia.
  cbn [demux_loop]. destruct (Nat.ltb_spec 0 (p_size p)); [|lia]. cbn [Nat.eqb].
  pose proof (hdr_debug_panic (p_pid p) (p_cc p) false (repeat 0 (188 * n)) H) as [E|E].
  2: { rewrite repeat_length in E. lia. }
  pose proof (hdr_fold Debug (p_pid p) (p_cc p) false dst (repeat 0 (188 * n))) as F. rewrite E in F. cbn [bind] in F.
  destruct (set (dst ++ repeat 0 (188 * n)) (length dst) 71) as [d1| |]; cbn [bind] in F |- *; [|reflexivity|discriminate].
  destruct (on_from d1 _ _) as [d2| |]; cbn [bind] in F |- *; [|reflexivity|discriminate].
  destruct (on_from d2 _ _) as [d3| |]; cbn [bind] in F |- *; [|reflexivity|discriminate].
  destruct (on_from d3 _ _) as [d4| |]; cbn [bind] in F |- *; [discriminate|reflexivity|discriminate].
Qed.
