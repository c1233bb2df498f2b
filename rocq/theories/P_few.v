(** Proofs: how many sections and packets a table takes. *)
From Verif Require Import Prelude Layout Facts S_ts S_crc S_utils S_psi M_text M_psi M_drive M_recv M_desc S_desc M_tables S_tables S_few.
From Verif Require Import P_desc P_psi P_sect P_tab P_tab2 P_tab3 P_tab4 P_tab5 P_eit W_tables.
From Verif Require W_sys P_tot.

(** ** packets *)
Lemma stream_length pid : forall ss cc, Forall bytes ss -> length (stream pid cc ss) = packets ss.
Proof.
  induction ss as [|s ss IH]; intros cc F; [reflexivity|]. inversion F; subst. rewrite stream_cons, app_length, section_packets_length, IH by assumption. reflexivity.
Qed.
Lemma concat_len n : forall (ps : list (list N)), Forall (fun x => length x = n) ps -> length (concat ps) = (n * length ps)%nat.
Proof. induction 1 as [|x ps H _ IH]; [cbn; lia|]. cbn [concat length]. rewrite app_length, IH, H. lia. Qed.
Lemma sends_cost dm pid cc dst ss : sends dm pid cc dst ss -> Forall bytes ss -> cc < 16 ->
  exists out, dm = Ok ((cc + N.of_nat (packets ss)) mod 16, dst ++ out) /\ length out = (188 * packets ss)%nat.
Proof.
  intros S F C. exists (concat (stream pid cc ss)). unfold sends, next_cc in S. rewrite stream_length in S by assumption. split; [exact S|].
  rewrite (concat_len 188), stream_length by (try assumption; apply W_sys.stream_188; assumption). reflexivity.
Qed.
Lemma packets_le : forall ss, (184 * packets ss <= 184 * length ss + size_of ss)%nat /\ (length ss + size_of ss <= 184 * packets ss)%nat.
Proof.
  unfold packets, size_of. induction ss as [|s ss [A B]]; [split; reflexivity|]. cbn [map list_sum fold_right concat length] in *. rewrite app_length. fold (list_sum (map packets_of ss)) in *.
  unfold packets_of at 1 3. pose proof (Nat.div_mod (length s) 184 ltac:(discriminate)). pose proof (Nat.mod_upper_bound (length s) 184 ltac:(discriminate)). lia.
Qed.

(** ** sections *)
Lemma fewest {A} (w : A -> list N) (c : nat -> nat) n : forall gs g i o os x,
  o ++ concat os = x ++ g ++ concat gs -> Forall (fun g => g <> []) gs ->
  (forall j a y r, nth_error (g :: gs) j = Some a -> nth_error gs j = Some (y :: r) -> (n < c (i + j) + length (flat_map w a) + length (w y))%nat) ->
  (forall j a, nth_error (o :: os) j = Some a -> (c (i + j) + length (flat_map w a) <= n)%nat) -> (length gs <= length os)%nat.
Proof.
  induction gs as [|h gs IH]; intros g i o os x E NE F L; [cbn; lia|]. inversion NE as [|? ? NH NT]; subst. destruct h as [|y r]; [congruence|].
  destruct (le_lt_dec (length o) (length (x ++ g))) as [Q|Q].
  - assert (X : exists x', x ++ g = o ++ x' /\ concat os = x' ++ (y :: r) ++ concat gs).
    { exists (skipn (length o) (x ++ g)). rewrite app_assoc in E. cbn [concat] in E.
      assert (P : o = firstn (length o) (x ++ g)). { apply (f_equal (firstn (length o))) in E. rewrite firstn_app, Nat.sub_diag, firstn_O, app_nil_r, firstn_all in E. rewrite firstn_app in E.
        replace (length o - length (x ++ g))%nat with 0%nat in E by lia. rewrite firstn_O, app_nil_r in E. exact E. }
      split; [rewrite P at 1; symmetry; apply firstn_skipn|].
      rewrite <- (firstn_skipn (length o) (x ++ g)) in E. rewrite <- P, <- app_assoc in E. apply app_inv_head in E. exact E. }
    destruct X as (x' & _ & E'). destruct os as [|o' os]; [cbn [concat] in E'; destruct x'; discriminate|]. cbn [length]. apply le_n_S.
    apply (IH (y :: r) (S i) o' os x' E' NT).
    + intros j a z q H1 H2. specialize (F (S j) a z q H1 H2). rewrite Nat.add_succ_r in F. exact F.
    + intros j a H1. specialize (L (S j) a H1). rewrite Nat.add_succ_r in L. exact L.
  - exfalso. assert (X : exists o', o = (x ++ g) ++ y :: o').
    { rewrite app_assoc in E. cbn [concat app] in E. revert E Q. generalize (x ++ g). intros xg E Q. assert (P : xg = firstn (length xg) o).
      { apply (f_equal (firstn (length xg))) in E. rewrite !firstn_app in E. rewrite Nat.sub_diag, firstn_O, app_nil_r, firstn_all in E. replace (length xg - length o)%nat with 0%nat in E by lia.
        rewrite firstn_O, app_nil_r in E. symmetry. exact E. }
      destruct (skipn (length xg) o) as [|z o'] eqn:Z; [apply (f_equal (@length A)) in Z; rewrite skipn_length in Z; cbn in Z; lia|].
      exists o'. rewrite <- (firstn_skipn (length xg) o) at 1. rewrite <- P, Z. f_equal. f_equal.
      rewrite <- (firstn_skipn (length xg) o), <- P, Z, <- app_assoc in E. apply app_inv_head in E. cbn [app] in E. congruence. }
    destruct X as (o' & ->). pose proof (F 0%nat g y r eq_refl eq_refl) as F0. pose proof (L 0%nat _ eq_refl) as L0.
    rewrite !flat_map_app, !app_length in L0. cbn [flat_map] in L0. rewrite app_length in L0. lia.
Qed.
Lemma pairs {A} (w : A -> list N) (c : nat -> nat) n : forall gs g i, Forall (fun g => g <> []) gs ->
  (forall j a y r, nth_error (g :: gs) j = Some a -> nth_error gs j = Some (y :: r) -> (n < c (i + j) + length (flat_map w a) + length (w y))%nat) ->
  (length gs * S n <= list_sum (map c (seq i (length gs))) + length (flat_map w g) + 2 * length (flat_map w (concat gs)))%nat.
Proof.
  induction gs as [|h gs IH]; intros g i NE F; [cbn; lia|]. inversion NE as [|? ? NH NT]; subst. destruct h as [|y r]; [congruence|].
  pose proof (F 0%nat g y r eq_refl eq_refl) as F0. rewrite Nat.add_0_r in F0.
  assert (X := IH (y :: r) (S i) NT ltac:(intros j a z q H1 H2; specialize (F (S j) a z q H1 H2); rewrite Nat.add_succ_r in F; exact F)).
  cbn [length seq map list_sum fold_right concat] in *. fold (list_sum (map c (seq (S i) (length gs)))) in *. rewrite flat_map_app, app_length. cbn [flat_map] in *. rewrite app_length in *. lia.
Qed.
Lemma nth_numbered {A} (f : nat -> A -> list N) : forall l i j, nth_error (numbered f i l) j = match nth_error l j with Some x => Some (f (i + j)%nat x) | None => None end.
Proof. induction l as [|x l IH]; intros i [|j]; cbn [numbered nth_error]; try reflexivity; [rewrite Nat.add_0_r; reflexivity|]. rewrite IH. rewrite Nat.add_succ_r. reflexivity. Qed.
Lemma sum_const k : forall l, list_sum (map (fun _ : nat => k) l) = (k * length l)%nat.
Proof. induction l as [|x l IH]; [cbn; lia|]. cbn [map list_sum fold_right length]. fold (list_sum (map (fun _ : nat => k) l)). rewrite IH. lia. Qed.
(** the sizes of the sections *)
Lemma size_numbered {A} (w : A -> list N) (c : nat -> nat) (sec : nat -> list A -> list N) : (forall i g, length (sec i g) = (c i + length (flat_map w g))%nat) ->
  forall l i, size_of (numbered sec i l) = (list_sum (map c (seq i (length l))) + length (flat_map w (concat l)))%nat.
Proof.
  intros E. unfold size_of. induction l as [|g l IH]; intros i; [reflexivity|]. cbn [numbered concat length seq map list_sum fold_right]. rewrite app_length, IH, E, flat_map_app, app_length.
  fold (list_sum (map c (seq (S i) (length l)))). lia.
Qed.
Lemma numbered_length {A} (f : nat -> A -> list N) : forall l i, length (numbered f i l) = length l.
Proof. induction l as [|x l IH]; intros i; [reflexivity|]. cbn [numbered length]. rewrite IH. reflexivity. Qed.
Lemma sum_first d k : forall n i, list_sum (map (fun j => if (j =? 0)%nat then (k + d)%nat else k) (seq (S i) n)) = (k * n)%nat.
Proof. induction n as [|n IH]; intros i; [cbn; lia|]. cbn [seq map list_sum fold_right]. fold (list_sum (map (fun j => if (j =? 0)%nat then (k + d)%nat else k) (seq (S (S i)) n))). rewrite IH. cbn [Nat.eqb]. lia. Qed.
(** a table of sections with [k] bytes beside the items, and [d] more in the first *)
Lemma few_all {A} (w : A -> list N) k d (sec : N -> nat -> list A -> list N) items groups L :
  (forall l i g, length (sec l i g) = ((if (i =? 0)%nat then k + d else k) + length (flat_map w g))%nat) ->
  grouping items groups -> filled w (N.to_nat 1024) (numbered (sec L) 0 groups) groups ->
  (forall other l, other <> [] -> concat other = items -> Forall (fun s => (length s <= N.to_nat 1024)%nat) (numbered (sec l) 0 other) -> (length groups <= length other)%nat) /\
  (length groups * (N.to_nat 1025 - k) <= N.to_nat 1025 - k + d + 2 * length (flat_map w items))%nat /\
  size_of (numbered (sec L) 0 groups) = (k * length groups + d + length (flat_map w items))%nat.
Proof.
  intros E (G1 & G2 & G3) F. destruct groups as [|g gs]; [congruence|]. cbn [tl] in G3. set (c := fun j => if (j =? 0)%nat then (k + d)%nat else k).
  assert (F' : forall j a y r, nth_error (g :: gs) j = Some a -> nth_error gs j = Some (y :: r) -> (N.to_nat 1024 < c (0 + j) + length (flat_map w a) + length (w y))%nat).
  { intros j a y r H1 H2. specialize (F j (sec L j a) y r). rewrite nth_numbered, H1 in F. specialize (F eq_refl H2). rewrite E in F. exact F. }
  split; [|split].
  - intros [|o os] l NE C B; [congruence|]. cbn [length]. apply le_n_S. apply (fewest w c (N.to_nat 1024) gs g 0 o os []); [|exact G3|exact F'|].
    + cbn [concat app] in *. rewrite C, G1. reflexivity.
    + intros j a H. rewrite Forall_forall in B. specialize (B (sec l j a)). rewrite E in B. apply B. apply (nth_error_In _ j). rewrite nth_numbered, H. reflexivity.
  - pose proof (pairs w c (N.to_nat 1024) gs g 0 G3 F') as P. rewrite <- G1. cbn [concat length]. rewrite flat_map_app, app_length.
    assert (S : (list_sum (map c (seq 0 (length gs))) <= k * length gs + d)%nat).
    { destruct gs as [|h gs]; [cbn; lia|]. cbn [length seq map list_sum fold_right]. fold (list_sum (map c (seq 1 (length gs)))). unfold c at 2. rewrite sum_first. unfold c. cbn [Nat.eqb]. lia. }
    replace (N.to_nat 1025) with (Datatypes.S (N.to_nat 1024)) by lia. revert P S. generalize (list_sum (map c (seq 0 (length gs)))), (length (flat_map w g)), (length (flat_map w (concat gs))), (length gs), (N.to_nat 1024). clear.
    intros a b e l n P S. rewrite Nat.mul_sub_distr_l. cbn [Nat.mul]. nia.
  - rewrite (size_numbered w c) by (intros i a; apply E). rewrite G1. cbn [length seq map list_sum fold_right]. fold (list_sum (map c (seq 1 (length gs)))). unfold c at 2. rewrite sum_first. unfold c. cbn [Nat.eqb]. lia.
Qed.

(** ** the tables *)
Lemma linear k d t n p : (k = 15 \/ k = 16)%nat -> (n * (N.to_nat 1025 - k) <= N.to_nat 1025 - k + d + 2 * t)%nat -> (184 * p <= 184 * n + (k * n + d + t))%nat ->
  (920 * p <= N.to_nat 1000 + 6 * d + 7 * t)%nat.
Proof.
  intros [-> | ->]; intros A B.
  - replace (N.to_nat 1025 - 15)%nat with (N.to_nat 1010) in A by lia. replace (N.to_nat 1010) with (N.to_nat 1000 + 10)%nat in A by lia. replace (N.to_nat 1000) with (8 * 125)%nat in * by lia. lia.
  - replace (N.to_nat 1025 - 16)%nat with (N.to_nat 1000 + 9)%nat in A by lia. replace (N.to_nat 1000) with (8 * 125)%nat in * by lia. lia.
Qed.
Lemma pmt_few m t pid cc dst : pmt_ok t -> pmt_fits (N.to_nat 1024) t -> pid < 8192 -> cc < 16 ->
  exists groups, grouping (pmt_items t) groups /\
    (forall other last, other <> [] -> concat other = pmt_items t -> Forall (fun s => (length s <= N.to_nat 1024)%nat) (numbered (pmt_section t last) 0 other) -> (length groups <= length other)%nat) /\
    let ss := numbered (pmt_section t (N.of_nat (length groups - 1))) 0 groups in
    sends (pmt_demux m t pid cc dst) pid cc dst ss /\
    (920 * packets ss <= N.to_nat 1000 + 6 * length (wire (pmt_descs t)) + 7 * length (flat_map pmt_entry (pmt_items t)))%nat.
Proof.
  intros H F P C. destruct (pmt_sized m t pid cc dst H F P C) as (groups & G & S & _ & Fi). exists groups. split; [exact G|].
  assert (E : forall l i g, length (pmt_section t l i g) = ((if (i =? 0)%nat then 16 + length (wire (pmt_descs t)) else 16) + length (flat_map pmt_entry g))%nat).
  { intros l i g. unfold pmt_section. cbv zeta. rewrite section_len, !app_length, layout_length by reflexivity. tw. destruct (i =? 0)%nat; [|change (length (wire [])) with 0%nat]; lia. }
  destruct (few_all pmt_entry 16 (length (wire (pmt_descs t))) (pmt_section t) _ _ _ E G Fi) as (A & B & Z). split; [exact A|]. cbv zeta. split; [exact S|].
  set (ss := numbered _ 0 groups) in *. pose proof (packets_le ss) as [Q _]. rewrite Z in Q. replace (length ss) with (length groups) in Q by (symmetry; apply numbered_length).
  apply (linear 16 _ _ (length groups)); [right; reflexivity|exact B|exact Q].
Qed.
Lemma nit_few m t pid cc dst : nit_ok t -> nit_fits (N.to_nat 1024) t -> pid < 8192 -> cc < 16 ->
  exists groups, grouping (nit_items t) groups /\
    (forall other last, other <> [] -> concat other = nit_items t -> Forall (fun s => (length s <= N.to_nat 1024)%nat) (numbered (nit_section t last) 0 other) -> (length groups <= length other)%nat) /\
    let ss := numbered (nit_section t (N.of_nat (length groups - 1))) 0 groups in
    sends (nit_demux m t pid cc dst) pid cc dst ss /\
    (920 * packets ss <= N.to_nat 1000 + 6 * length (wire (nit_descs t)) + 7 * length (flat_map nit_entry (nit_items t)))%nat.
Proof.
  intros H F P C. destruct (nit_sized m t pid cc dst H F P C) as (groups & G & S & _ & Fi). exists groups. split; [exact G|].
  assert (E : forall l i g, length (nit_section t l i g) = ((if (i =? 0)%nat then 16 + length (wire (nit_descs t)) else 16) + length (flat_map nit_entry g))%nat).
  { intros l i g. unfold nit_section. cbv zeta. rewrite section_len, !app_length, !layout_length by reflexivity. tw. destruct (i =? 0)%nat; [|change (length (wire [])) with 0%nat]; lia. }
  destruct (few_all nit_entry 16 (length (wire (nit_descs t))) (nit_section t) _ _ _ E G Fi) as (A & B & Z). split; [exact A|]. cbv zeta. split; [exact S|].
  set (ss := numbered _ 0 groups) in *. pose proof (packets_le ss) as [Q _]. rewrite Z in Q. replace (length ss) with (length groups) in Q by (symmetry; apply numbered_length).
  apply (linear 16 _ _ (length groups)); [right; reflexivity|exact B|exact Q].
Qed.
Lemma sdt_few m t pid cc dst : sdt_ok t -> sdt_fits (N.to_nat 1024) t -> pid < 8192 -> cc < 16 ->
  exists groups, grouping (sdt_items t) groups /\
    (forall other last, other <> [] -> concat other = sdt_items t -> Forall (fun s => (length s <= N.to_nat 1024)%nat) (numbered (sdt_section t last) 0 other) -> (length groups <= length other)%nat) /\
    let ss := numbered (sdt_section t (N.of_nat (length groups - 1))) 0 groups in
    sends (sdt_demux m t pid cc dst) pid cc dst ss /\ (920 * packets ss <= N.to_nat 1000 + 7 * length (flat_map sdt_entry (sdt_items t)))%nat.
Proof.
  intros H F P C. destruct (sdt_sized m t pid cc dst H F P C) as (groups & G & S & _ & Fi). exists groups. split; [exact G|].
  assert (E : forall l i g, length (sdt_section t l i g) = ((if (i =? 0)%nat then 15 + 0 else 15) + length (flat_map sdt_entry g))%nat).
  { intros l i g. unfold sdt_section. cbv zeta. rewrite section_len, !app_length, layout_length by reflexivity. tw. destruct (i =? 0)%nat; lia. }
  destruct (few_all sdt_entry 15 0 (sdt_section t) _ _ _ E G Fi) as (A & B & Z). split; [exact A|]. cbv zeta. split; [exact S|].
  set (ss := numbered _ 0 groups) in *. pose proof (packets_le ss) as [Q _]. rewrite Z in Q. replace (length ss) with (length groups) in Q by (symmetry; apply numbered_length).
  pose proof (linear 15 _ _ (length groups) (packets ss) ltac:(left; reflexivity) B Q). lia.
Qed.
Lemma one_cost dm pid cc dst s n : sends dm pid cc dst [s] -> bytes s -> cc < 16 -> (1 + length s / 184)%nat = n ->
  exists out, dm = Ok ((cc + N.of_nat n) mod 16, dst ++ out) /\ length out = (188 * n)%nat.
Proof.
  intros S B C <-. destruct (sends_cost dm pid cc dst [s] S ltac:(constructor; [exact B|constructor]) C) as (out & E & L). exists out.
  assert (Q : packets [s] = (1 + length s / 184)%nat) by (unfold packets, packets_of; cbn [map list_sum fold_right]; lia). rewrite Q in *. split; assumption.
Qed.
Lemma pat_few m t pid cc dst : pat_ok t -> pid < 8192 -> cc < 16 -> let n := (1 + (12 + 4 * Nat.min 253 (length (pat_items t))) / 184)%nat in
  exists out, pat_demux m t pid cc dst = Ok ((cc + N.of_nat n) mod 16, dst ++ out) /\ length out = (188 * n)%nat /\ (n <= 6)%nat.
Proof.
  intros H P C n. destruct (pat_demux_spec m t pid cc dst H P C) as (S & A & _).
  destruct (one_cost _ pid cc dst _ n S (proj1 A) C) as (out & E & L).
  - unfold pat_section. rewrite section_len. replace (length (flat_map pat_entry (firstn 253 (pat_items t)))) with (4 * Nat.min 253 (length (pat_items t)))%nat; [unfold n; do 2 f_equal; lia|].
    rewrite <- firstn_length. generalize (firstn 253 (pat_items t)). induction l as [|i l IH]; [reflexivity|]. cbn [flat_map length]. rewrite app_length, <- IH. unfold pat_entry. rewrite layout_length by reflexivity. tw. lia.
  - exists out. split; [exact E|]. split; [exact L|]. unfold n. pose proof (Nat.div_le_mono (12 + 4 * Nat.min 253 (length (pat_items t))) (12 + 4 * 253) 184 ltac:(discriminate) ltac:(lia)) as D. change ((12 + 4 * 253) / 184)%nat with 5%nat in D. lia.
Qed.
Lemma pf_few m t pid cc dst : eit_ok t -> eit_fits (N.to_nat 4098) t -> eit_table t = 0x4E \/ eit_table t = 0x4F -> (length (eit_items t) <= 256)%nat -> pid < 8192 -> cc < 16 ->
  let n := list_sum (map (fun i => 1 + (30 + length (wire (eiti_descs i))) / 184)%nat (eit_items t)) in
  exists out, eit_demux m t pid cc dst = Ok ((cc + N.of_nat n) mod 16, dst ++ out) /\ length out = (188 * n)%nat.
Proof.
  intros H F T L P C n. destruct (eit_pf_demux m t pid cc dst H F T L P C) as [S A]. cbv zeta in S, A.
  destruct (sends_cost _ pid cc dst _ S) as (out & E & Z); [eapply Forall_impl; [|exact A]; intros s Hs; apply Hs|exact C|]. exists out.
  assert (Q : forall l i a b, packets (numbered (fun i g => eit_section t (eit_table t) (N.of_nat i) a b (eit_table t) [g]) i l) = list_sum (map (fun i => 1 + (30 + length (wire (eiti_descs i))) / 184)%nat l)).
  { unfold packets. induction l as [|i l IH]; intros k a b; [reflexivity|]. cbn [numbered map list_sum fold_right]. fold (list_sum (map packets_of (numbered (fun i g => eit_section t (eit_table t) (N.of_nat i) a b (eit_table t) [g]) (Datatypes.S k) l))).
    rewrite IH. fold (list_sum (map (fun i => (1 + (30 + length (wire (eiti_descs i))) / 184)%nat) l)). f_equal. unfold packets_of, eit_section. rewrite section_len. cbn [flat_map]. rewrite !app_length, layout_length by reflexivity.
    unfold eit_entry. rewrite app_length, layout_length by reflexivity. tw. cbn [Nat.add]. do 2 f_equal. cbn [length]. lia. }
  rewrite Q in *. split; assumption.
Qed.
Lemma tdt_few m t pid cc dst : t < MJD_END -> pid < 8192 -> cc < 16 ->
  exists out, tdt_demux m t pid cc dst = Ok ((cc + 1) mod 16, dst ++ out) /\ length out = 188%nat.
Proof.
  intros H P C. pose proof (P_tot.tdt_demux_spec m t pid cc dst H P C) as S.
  destruct (one_cost _ pid cc dst _ 1 S) as (out & E & L); [unfold tdt_bytes, short_section; apply bytes_app; split; apply layout_bytes|exact C|unfold tdt_bytes, short_section; rewrite app_length, !layout_length by reflexivity; reflexivity|].
  exists out. split; [exact E|exact L].
Qed.
Lemma tot_few m t pid cc dst : tot_time t < MJD_END -> loop_ok (tot_descs t) -> (length (wire (tot_descs t)) <= N.to_nat 4084)%nat -> pid < 8192 -> cc < 16 ->
  let n := (1 + (14 + length (wire (tot_descs t))) / 184)%nat in
  exists out, tot_demux m t pid cc dst = Ok ((cc + N.of_nat n) mod 16, dst ++ out) /\ length out = (188 * n)%nat.
Proof.
  intros H O L P C n. destruct (P_tot.tot_demux_spec m t pid cc dst H O L P C) as (S & A).
  apply (one_cost _ pid cc dst _ n S (proj1 A) C). unfold n. do 2 f_equal. destruct (P_tot.tot_app t) as (h & c & L1 & -> & L2 & _). rewrite !app_length, L1, L2, layout_length by reflexivity. tw. lia.
Qed.
