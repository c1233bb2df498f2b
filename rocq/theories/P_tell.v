(** Proofs: a stream tells which tables were sent. *)
From Coq Require Import ZifyBool.
From Verif Require Import Prelude Layout Facts Facts2 S_ts S_crc S_utils S_psi M_ts M_psi M_drive M_recv M_desc S_desc M_tables S_tables
  M_reader S_reader M_system S_system P_sys2 P_eit P_eit2 P_eit3 P_eit5 P_reader P_sys P_tab P_tab2 P_tab3 P_tab4 P_tab5 P_tot P_sect P_mux3 P_desc W_desc W_tables W_eit W_sys M_multi S_multi P_multi S_tell.
From Verif Require P_distinct P_frame P_desc3 P_few P_profile.

(** ** packets of sections *)
Lemma number_same pid : forall a b cc first, number_packets pid cc first a = number_packets pid cc first b -> a = b.
Proof.
  induction a as [|x a IH]; intros [|y b] cc first E; cbn [number_packets] in E; try reflexivity; try discriminate.
  pose proof (P_distinct.cons_hd _ _ _ _ E) as E1. apply P_distinct.cons_tl in E. apply app_inv_head in E1. apply IH in E. congruence.
Qed.
Lemma number_length pid : forall a cc first, length (number_packets pid cc first a) = length a.
Proof. induction a as [|x a IH]; intros cc first; [reflexivity|]. cbn [number_packets length]. rewrite IH. reflexivity. Qed.
Lemma framed_head s c ps st : framed s -> length c = 183%nat -> c ++ concat ps = s ++ st -> section_length s = section_length c.
Proof.
  intros [_ L] Lc E. assert (L3 : (3 <= length s)%nat) by (rewrite L; unfold section_length; lia).
  assert (F : firstn 3 c = firstn 3 s).
  { apply (f_equal (firstn 3)) in E. rewrite !firstn_app in E. replace (3 - length c)%nat with 0%nat in E by lia. replace (3 - length s)%nat with 0%nat in E by lia.
    cbn [firstn] in E. rewrite !app_nil_r in E. exact E. }
  unfold section_length. do 2 f_equal. rewrite <- (firstn_skipn 3 s), <- (firstn_skipn 3 c), F.
  rewrite !field_prefix by (rewrite firstn_length; lia). reflexivity.
Qed.
Lemma packets_inj pid cc s X pid' cc' s' X' : framed s -> framed s' -> pid < 8192 -> pid' < 8192 -> cc < 16 -> cc' < 16 ->
  section_packets pid cc s ++ X = section_packets pid' cc' s' ++ X' -> pid = pid' /\ cc = cc' /\ s = s' /\ X = X'.
Proof.
  intros F F' P P' C C' E. unfold section_packets in E. destruct (section_chunks s (proj1 F)) as (c & ps & st & E1 & _ & _ & Lc & E2 & _ & L).
  destruct (section_chunks s' (proj1 F')) as (c' & ps' & st' & E1' & _ & _ & Lc' & E2' & _ & L'). rewrite E1, E1' in E. cbn [number_packets app] in E.
  pose proof (P_distinct.cons_hd _ _ _ _ E) as H. apply P_distinct.cons_tl in E.
  assert (K : ts_header 0x47 0 1 0 pid 0 0 1 cc = ts_header 0x47 0 1 0 pid' 0 0 1 cc' /\ 0 :: c = 0 :: c').
  { apply P_desc3.app_inj_len; [unfold ts_header; rewrite !layout_length by reflexivity; reflexivity|exact H]. }
  destruct K as [K1 K2]. injection K2 as K2. subst c'.
  assert (Q1 : pid = pid').
  { apply (f_equal (fun l => field (l ++ []) 11 13)) in K1. unfold ts_header in K1. revert K1.
    match goal with |- field ?a _ _ = field ?b _ _ -> _ => assert (A : field a 11 13 = pid) by fv; assert (B : field b 11 13 = pid') by fv; rewrite A, B end. trivial. }
  assert (Q2 : cc = cc').
  { apply (f_equal (fun l => field (l ++ []) 28 4)) in K1. unfold ts_header in K1. revert K1.
    match goal with |- field ?a _ _ = field ?b _ _ -> _ => assert (A : field a 28 4 = cc) by fv; assert (B : field b 28 4 = cc') by fv; rewrite A, B end. trivial. }
  subst pid' cc'. clear K1 H.
  assert (LS : length s = length s') by (rewrite (proj2 F), (proj2 F'), (framed_head s c ps st F Lc E2), (framed_head s' c ps' st' F' Lc E2'); reflexivity).
  apply P_desc3.app_inj_len in E; [|rewrite !number_length; congruence]. destruct E as [E ->]. apply number_same in E. subst ps'.
  rewrite E2' in E2. apply P_desc3.app_inj_len in E2; [|congruence]. destruct E2 as [E2 _]. auto.
Qed.
Lemma packets_some pid cc s : bytes s -> section_packets pid cc s <> [].
Proof. intros B. unfold section_packets. destruct (section_chunks s B) as (c & ps & st & -> & _). discriminate. Qed.
Lemma stream_inj pid : pid < 8192 -> forall a b cc, cc < 16 -> Forall framed a -> Forall framed b -> stream pid cc a = stream pid cc b -> a = b.
Proof.
  intros P. induction a as [|s a IH]; intros [|s' b] cc C A B E; [reflexivity| | |]; rewrite ?stream_cons in E; inversion A; inversion B; subst.
  - exfalso. symmetry in E. apply app_eq_nil in E as [E _]. revert E. apply packets_some. apply H1.
  - exfalso. apply app_eq_nil in E as [E _]. revert E. apply packets_some. apply H1.
  - apply packets_inj in E; try assumption. destruct E as (_ & _ & <- & E). f_equal. refine (IH _ _ _ H2 H6 E). apply N.mod_lt. discriminate.
Qed.
(** what follows a table: nothing, or the beginning of another *)
Definition fresh (P : list (list N)) : Prop :=
  P = [] \/ exists pid cc s Q, P = section_packets pid cc s ++ Q /\ framed s /\ pid < 8192 /\ cc < 16 /\ begins s = true.
Lemma cut pid : pid < 8192 -> forall a b cc P Q, cc < 16 -> Forall framed a -> Forall framed b -> Forall (fun s => begins s = false) a -> Forall (fun s => begins s = false) b ->
  fresh P -> fresh Q -> stream pid cc a ++ P = stream pid cc b ++ Q -> a = b /\ P = Q.
Proof.
  intros Hp. assert (Z : forall cc s R P, cc < 16 -> framed s -> begins s = false -> fresh P -> P = section_packets pid cc s ++ R -> False).
  { intros cc s R P C F B [-> |(p' & c' & s' & R' & -> & F' & P' & C' & B')] E.
    - symmetry in E. apply app_eq_nil in E as [E _]. revert E. apply packets_some. apply F.
    - apply packets_inj in E; try assumption. destruct E as (_ & _ & -> & _). congruence. }
  induction a as [|s a IH]; intros [|s' b] cc P Q C A B NA NB FP FQ E; rewrite ?stream_cons, <- ?app_assoc in E; inversion A; inversion B; inversion NA; inversion NB; subst.
  - auto.
  - exfalso. cbn [stream app] in E. eapply Z; [exact C| | |exact FP|exact E]; assumption.
  - exfalso. cbn [stream app] in E. symmetry in E. eapply Z; [exact C| | |exact FQ|exact E]; assumption.
  - apply packets_inj in E; try assumption. destruct E as (_ & _ & <- & E). apply IH in E; try assumption; [|apply N.mod_lt; discriminate]. destruct E as [<- <-]. auto.
Qed.

(** ** the sections of a table: the first begins it, the others do not *)
Lemma section_number table dvb ident version num last rest : field (section table dvb ident version num last rest) 48 8 = num mod 256.
Proof. unfold section. cbv zeta. rewrite <- app_assoc. erewrite field_at; [|reflexivity|reflexivity]. reflexivity. Qed.
Definition opens (ss : list (list N)) : Prop := exists s a, ss = s :: a /\ begins s = true /\ Forall (fun s => begins s = false) a.
Lemma numbered_opens {A} (f : nat -> A -> list N) id l : id < 0x50 -> (forall i g, field (f i g) 0 8 = id) -> (forall i g, field (f i g) 48 8 = N.of_nat i mod 256) -> l <> [] -> (length l <= 256)%nat ->
  opens (numbered f 0 l).
Proof.
  intros H T N0 Z L. assert (B : forall i g, begins (f i g) = (N.of_nat i mod 256 =? 0)).
  { intros i g. unfold begins. rewrite T, N0. destruct ((id =? 0x70) || (id =? 0x73)) eqn:Q; [lia|]. replace (negb (0x50 <=? id)) with true by lia. apply andb_true_r. }
  destruct l as [|x l]; [congruence|]. cbn [numbered]. eexists. eexists. split; [reflexivity|]. split; [rewrite B; reflexivity|].
  cbn [length] in L. assert (G : forall l i, (0 < i)%nat -> (i + length l <= 256)%nat -> Forall (fun s => begins s = false) (numbered f i l)).
  { clear - B. induction l as [|y l IH]; intros i I L; cbn [numbered]; constructor; [rewrite B; rewrite N.mod_small by (cbn [length] in L; lia); lia|]. cbn [length] in L. apply IH; lia. }
  apply G; lia.
Qed.
Lemma full_count {A} (w : A -> list N) k : forall gs g k0, Forall (fun g => g <> []) gs -> full w (N.to_nat 1024) k0 k g gs -> (k <= 16)%nat ->
  (length gs * N.to_nat 1008 <= k0 + length (flat_map w g) + 2 * length (flat_map w (concat gs)))%nat.
Proof.
  induction gs as [|h gs IH]; intros g k0 NE F K; [cbn; lia|]. cbn [full] in F. destruct F as [F1 F2]. inversion NE as [|? ? NH NT]; subst. destruct h as [|x r]; [congruence|].
  specialize (IH (x :: r) k NT F2 K). cbn [length concat]. rewrite flat_map_app, app_length. cbn [flat_map] in *. rewrite app_length in *. lia.
Qed.
Lemma split_count {A} (w : A -> list N) k0 k g gs items : split_ok w k0 k g gs -> items = g ++ concat gs -> (k <= 16)%nat -> (k0 <= N.to_nat 4112)%nat ->
  (length (flat_map w items) <= N.to_nat 120000)%nat -> (length (g :: gs) <= 256)%nat.
Proof.
  intros (NE & _ & _ & F) -> K K0 L. pose proof (full_count w k gs g k0 NE F K) as H. rewrite flat_map_app, app_length in L. cbn [length].
  assert (X : (length gs * N.to_nat 1008 <= N.to_nat 4112 + 2 * N.to_nat 120000)%nat) by lia. clear - X. lia.
Qed.

(** *** schedules *)
Definition later (base : N) (x : part) : Prop := part_num x < 256 /\ (0 < part_num x \/ base < part_table x).
Lemma addw_sum w a b c : addw w Debug a b = Ok c -> c = a + b /\ c < w.
Proof. unfold addw. destruct (N.ltb_spec (a + b) w); intros E; [|discriminate]. injection E as <-. auto. Qed.
Lemma plan_later base : forall items next tb sec cur l, plan Debug items next tb sec cur = Ok l -> base <= tb -> sec < 256 -> 0 < sec \/ base < tb -> later base cur -> Forall (later base) l.
Proof.
  induction items as [|i items IH]; intros next tb sec cur l E Hb Hs Hx Hc; cbn [plan] in E; [injection E as <-; constructor; [exact Hc|constructor]|].
  destruct (next <=? eiti_start i).
  - apply bind_inv in E as (nx & _ & E). apply bind_inv in E as ([s tb'] & Y & E). apply bind_inv in E as (l' & E & E'). injection E' as <-. constructor; [exact Hc|].
    assert (G : base <= tb' /\ s < 256 /\ (0 < s \/ base < tb')).
    { destruct (N.eqb_spec (sec / 8 * 8) 248).
      - apply bind_inv in Y as (v & Y & Y'). apply addw_sum in Y as [-> Y]. injection Y' as <- <-. lia.
      - apply bind_inv in Y as (v & Y & Y'). apply addw_sum in Y as [-> Y]. injection Y' as <- <-. unfold U8 in Y. lia. }
    destruct G as (G1 & G2 & G3). eapply IH; [exact E|exact G1|exact G2|exact G3|]. split; [exact G2|exact G3].
  - destruct (big i (part_items cur)).
    + apply bind_inv in E as (s & Y & E). apply bind_inv in E as (l' & E & E'). injection E' as <-. constructor; [exact Hc|]. apply addw_sum in Y as [-> Y]. unfold U8 in Y.
      eapply IH; [exact E|exact Hb|exact Y|lia|]. split; [exact Y|]. cbn [part_num]. lia.
    + eapply IH; [exact E|exact Hb|exact Hs|exact Hx|]. exact Hc.
Qed.
Lemma blanks_later base : forall n s, 0 < s -> s + 8 * N.of_nat n < 256 -> Forall (later base) (blanks n base s).
Proof. induction n as [|n IH]; intros s S L; cbn [blanks]; constructor; [split; cbn [part_num]; lia|apply IH; lia]. Qed.
Lemma schedule_opens t first items lt l : eit_ok t -> 0x50 <= eit_table t <= 0x6F -> eit_plan Debug t first items = Ok (lt, l) ->
  Forall (fun s => eit_table t / 16 * 16 <= slot_table s < eit_table t / 16 * 16 + 16) (sealing lt l) -> opens (map (slot_section t) (sealing lt l)).
Proof.
  intros H T P B. pose proof (sealing_parts lt l) as SP. unfold eit_plan in P. apply bind_inv in P as (sv & _ & P). apply bind_inv in P as (lt' & _ & P). apply bind_inv in P as (l' & P & Q).
  injection Q as <- <-. rewrite land_F0 in * by (clear - T; lia). set (base := eit_table t / 16 * 16) in *. destruct (segment_le first) as (G & _).
  assert (LL : Forall (later base) (blanks (N.to_nat (segment first)) base 8 ++ l')).
  { apply Forall_app. split; [apply blanks_later; lia|]. eapply plan_later; [exact P|lia|lia|lia|]. split; cbn [part_num]; lia. }
  replace (N.to_nat (segment first + 1)) with (S (N.to_nat (segment first))) in * by lia. cbn [blanks app] in *. change (0 + 8) with 8 in *.
  set (rest := blanks (N.to_nat (segment first)) base 8 ++ l') in *. revert SP B. match goal with |- context [map (slot_section t) ?x] => generalize x; intros sl0 end. destruct sl0 as [|s0 sl]; intros SP B; [discriminate SP|]. cbn [map] in SP.
  assert (S1 : slot_part s0 = (base, 0, [])) by congruence. assert (S2 : map slot_part sl = rest) by congruence. rewrite <- S2 in LL. clear SP S2 P. rewrite Forall_map in LL.
  inversion B as [|? ? B0 B1]; subst. exists (slot_section t s0), (map (slot_section t) sl). split; [reflexivity|].
  assert (BG : forall s, base <= slot_table s < base + 16 -> begins (slot_section t s) = (slot_num s mod 256 =? 0) && (slot_table s mod 16 =? 0)).
  { intros [[[[[tb n] a] b] c] g] Hs. cbn [slot_section slot_table slot_num] in *. unfold begins. rewrite eit_tables; [|exact H|subst base; clear - Hs T; dlia].
    unfold eit_section. rewrite section_number. destruct ((tb =? 112) || (tb =? 115)) eqn:X; [exfalso; subst base; clear - Hs T X; dlia|].
    replace (negb (0x50 <=? tb)) with false by (subst base; clear - Hs T; dlia). reflexivity. }
  split.
  - rewrite (BG _ B0). destruct s0 as [[[[[tb n] a] b] c] g]. cbn [slot_part slot_num slot_table] in *. injection S1 as -> -> _. subst base. clear. dlia.
  - apply Forall_map. rewrite Forall_forall in *. intros s Hs. rewrite (BG _ (B1 s Hs)). specialize (LL s Hs). specialize (B1 s Hs). destruct s as [[[[[tb n] a] b] c] g].
    unfold later in LL. cbn [slot_part slot_num slot_table part_num part_table] in *. subst base. clear - LL B1 T. dlia.
Qed.

(** ** what the sections of a table look like *)
Definition eit_side (t : table) (ss : list (list N)) : Prop :=
  match t with TEit t => Forall (fun s => (field s 0 8 <? 0x50) = (eit_table t <? 0x50)) ss | _ => True end.
Definition looks (t : table) (ss : list (list N)) : Prop := labelled t ss /\ opens ss /\ eit_side t ss.
Lemma num_pmt t last i g : field (pmt_section t last i g) 48 8 = N.of_nat i mod 256.
Proof. unfold pmt_section. cbv zeta. rewrite section_number. reflexivity. Qed.
Lemma num_nit t last i g : field (nit_section t last i g) 48 8 = N.of_nat i mod 256.
Proof. unfold nit_section. cbv zeta. rewrite section_number. reflexivity. Qed.
Lemma num_sdt t last i g : field (sdt_section t last i g) 48 8 = N.of_nat i mod 256.
Proof. unfold sdt_section. rewrite section_number. reflexivity. Qed.
Lemma num_eit t tb num a b c g : field (eit_section t tb num a b c g) 48 8 = num mod 256.
Proof. unfold eit_section. rewrite section_number. reflexivity. Qed.
Lemma send_looks t pid cc r : sendable t -> few t -> pid < 8192 -> cc < 16 -> send Debug t pid cc [] = Ok r ->
  exists ss, looks t ss /\ r = (next_cc pid cc ss, concat (stream pid cc ss)).
Proof.
  intros S W Hp Hc D. destruct t as [t|t|t|t|t|t|t]; cbn [send sendable few] in *.
  - destruct S as (H & L). destruct (pat_demux_spec Debug t pid cc [] H Hp Hc) as (E & K & _). rewrite E in D. eexists. split; [|symmetry; apply P_distinct.ok_inj; exact D].
    assert (I : forall g, field (pat_section t g) 0 8 = 0) by (intros g; pose proof H as (H1 & H2 & H3); unfold pat_section; apply (proj1 (section_head 0 _ _ _ _ _ _ eq_refl H2 H1))).
    split; [split; [apply ok_framed; constructor; [exact K|constructor]|]; constructor; [|constructor]; cbn [ids]; rewrite I; reflexivity|]. split; [|exact Logic.I].
    eexists. exists []. split; [reflexivity|]. split; [|constructor]. unfold begins. rewrite I. unfold pat_section. rewrite section_number. reflexivity.
  - destruct S as (H & F & _). destruct (pmt_demux_spec Debug t pid cc [] H F Hp Hc) as (g0 & gs & G & SP & E). cbv zeta in E. destruct E as [E K]. rewrite E in D.
    eexists. split; [|symmetry; apply P_distinct.ok_inj; exact D]. split; [split; [apply ok_framed; exact K|]; apply numbered_all; intros i g; rewrite pmt_tables by exact H; reflexivity|]. split; [|exact I].
    apply (numbered_opens _ 2); [reflexivity|intros i g; apply pmt_tables; exact H|intros i g; apply num_pmt|discriminate|]. refine (split_count pmt_entry _ 16 g0 gs _ SP G ltac:(lia) _ W). destruct F as [F _]. lia.
  - destruct S as (H & F & _ & _ & T). destruct (nit_demux_spec Debug t pid cc [] H F Hp Hc) as (g0 & gs & G & SP & E). cbv zeta in E. destruct E as [E K]. rewrite E in D.
    eexists. split; [|symmetry; apply P_distinct.ok_inj; exact D]. split; [split; [apply ok_framed; exact K|]; apply numbered_all; intros i g; rewrite nit_tables by exact H; destruct T as [-> | ->]; reflexivity|]. split; [|exact I].
    apply (numbered_opens _ (nit_table t)); [clear - T; lia|intros i g; apply nit_tables; exact H|intros i g; apply num_nit|discriminate|]. refine (split_count nit_entry _ 16 g0 gs _ SP G ltac:(lia) _ W). destruct F as [F _]. lia.
  - destruct S as (H & F & _ & T). destruct (sdt_demux_spec Debug t pid cc [] H F Hp Hc) as (g0 & gs & G & SP & E). cbv zeta in E. destruct E as [E K]. rewrite E in D.
    eexists. split; [|symmetry; apply P_distinct.ok_inj; exact D]. split; [split; [apply ok_framed; exact K|]; apply numbered_all; intros i g; rewrite sdt_tables by exact H; destruct T as [-> | ->]; reflexivity|]. split; [|exact I].
    apply (numbered_opens _ (sdt_table t)); [clear - T; lia|intros i g; apply sdt_tables; exact H|intros i g; apply num_sdt|discriminate|]. refine (split_count sdt_entry _ 15 g0 gs _ SP G ltac:(lia) ltac:(lia) W).
  - destruct S as [(H & F & X & T & L1 & L2)|(H & F & X & T & L)].
    + destruct (eit_pf_demux Debug t pid cc [] H F T L2 Hp Hc) as [E K]. rewrite E in D. eexists. split; [|symmetry; apply P_distinct.ok_inj; exact D].
      assert (TT : eit_table t < 0x50) by (clear - T; lia).
      split; [split; [apply ok_framed; exact K|]; apply numbered_all; intros i g; rewrite eit_tables; [|exact H|destruct T as [-> | ->]; reflexivity]; destruct T as [-> | ->]; reflexivity|].
      split; [|cbn [eit_side]; apply numbered_all; intros i g; rewrite eit_tables; [reflexivity|exact H|lia]].
      apply (numbered_opens _ (eit_table t)); [exact TT|intros i g; apply eit_tables; [exact H|lia]|intros i g; apply num_eit| |exact L2].
      intros Z. rewrite Z in L1. cbn in L1. lia.
    + destruct (eit_items t) as [|first items] eqn:E; [cbn in L; lia|].
      destruct (eit_demux_schedule Debug t first items pid cc [] H E F T Hp Hc) as [D' K].
      destruct (eit_plan Debug t first items) as [[lt l]| |] eqn:P; try congruence. specialize (K lt l eq_refl). cbv zeta in D'.
      destruct (sched_plan Debug t first items pid cc [] H E F T Hp Hc lt l P) as (D1 & D2 & D3 & D4 & D5 & D6 & D7).
      destruct (seen_few t _ _ _ T (D7 ltac:(rewrite E; apply L))) as (_ & B & V).
      assert (Q : Forall (fun s => 0x50 <= field (slot_section t s) 0 8 <= 0x6F) (sealing lt l)).
      { eapply Forall_impl; [|exact B]. intros s Bs. cbn beta in Bs. assert (Q : 0x50 <= slot_table s <= 0x6F) by (clear - T Bs; dlia).
        destruct s as [[[[[tb n] a] b] c] g]. unfold slot_section. cbn [slot_table] in Q. rewrite eit_tables; [exact Q|exact H|clear - Q; lia]. }
      rewrite D' in D. eexists. split; [|symmetry; apply P_distinct.ok_inj; exact D]. split; [|split].
      * split; [apply ok_framed; exact K|]. apply Forall_map. eapply Forall_impl; [|exact Q]. intros s Bs. cbn beta in Bs. cbn [ids]. unfold id_eit. clear - Bs. lia.
      * apply (schedule_opens t first items); assumption.
      * cbn [eit_side]. apply Forall_map. eapply Forall_impl; [|exact Q]. intros s Bs. cbn beta in Bs. clear - Bs T. lia.
  - rewrite (tdt_demux_spec Debug t pid cc [] S Hp Hc) in D. exists [tdt_bytes t]. split; [|symmetry; apply P_distinct.ok_inj; exact D].
    destruct (tdt_facts t S) as (L & B & Ls & F & _). split; [split; (constructor; [|constructor]); [split; [exact B|congruence]|]; cbn [ids]; rewrite F; reflexivity|]. split; [|exact I].
    exists (tdt_bytes t), []. split; [reflexivity|]. split; [|constructor]. unfold begins. rewrite F. reflexivity.
  - destruct S as (H1 & H2 & H3 & H4). destruct (tot_demux_spec Debug t pid cc [] H1 H2 H3 Hp Hc) as (E & K). rewrite E in D. exists [tot_bytes t].
    destruct (tot_app t) as (h & c & _ & _ & _ & F).
    split; [|symmetry; apply P_distinct.ok_inj; exact D]. split; [split; [apply ok_framed; constructor; [exact K|constructor]|]; constructor; [|constructor]; cbn [ids]; rewrite F; reflexivity|]. split; [|exact I].
    exists (tot_bytes t), []. split; [reflexivity|]. split; [|constructor]. unfold begins. rewrite F. reflexivity.
Qed.
(** tables with the same sections are the same *)
Lemma send_same t t' pid cc r ss : sendable t -> sendable t' -> pid < 8192 -> cc < 16 -> looks t ss -> looks t' ss -> send Debug t pid cc [] = Ok r -> send Debug t' pid cc [] = Ok r -> t = t'.
Proof.
  intros S S' Hp Hc ((_ & L) & (s & a & -> & _) & V) ((_ & L') & _ & V') D D'. rewrite <- D' in D.
  assert (IDS : ids t (field s 0 8) = true) by (inversion L; assumption). assert (IDS' : ids t' (field s 0 8) = true) by (inversion L'; assumption). clear L L'.
  destruct t as [t|t|t|t|t|t|t], t' as [t'|t'|t'|t'|t'|t'|t']; cbn [ids] in IDS, IDS'; unfold id_pat, id_pmt, id_nit, id_sdt, id_eit, id_tot, id_tdt in IDS, IDS'; try (exfalso; clear - IDS IDS'; lia);
    clear IDS IDS'; cbn [send sendable eit_side] in *; f_equal.
  - destruct S as (H & L), S' as (H' & L'). apply (P_distinct.apart_pat Debug t t' pid cc pid cc []); assumption.
  - destruct S as (H & F & X & I), S' as (H' & F' & X' & I'). apply (P_distinct.apart_pmt Debug t t' pid cc pid cc []); try assumption; [rewrite X; constructor|rewrite X'; constructor].
  - destruct S as (H & F & X & I & T), S' as (H' & F' & X' & I' & T'). apply (P_distinct.apart_nit Debug t t' pid cc pid cc []); assumption.
  - destruct S as (H & F & I & T), S' as (H' & F' & I' & T'). apply (P_distinct.apart_sdt Debug t t' pid cc pid cc []); assumption.
  - inversion V as [|? ? V1 _]; inversion V' as [|? ? V1' _]; subst. rewrite V1 in V1'. clear V V' V1.
    destruct S as [(H & F & X & T & L1)|(H & F & X & T & L)], S' as [(H' & F' & X' & T' & L1')|(H' & F' & X' & T' & L')].
    + apply (P_distinct.apart_pf Debug t t' pid cc pid cc []); assumption.
    + exfalso. clear - V1' T T'. lia.
    + exfalso. clear - V1' T T'. lia.
    + destruct (eit_items t) as [|f l] eqn:E; [cbn in L; lia|]. destruct (eit_items t') as [|f' l'] eqn:E'; [cbn in L'; lia|].
      apply (P_distinct.apart_schedule Debug t t' f l f' l' pid cc pid cc []); try assumption; try (rewrite E; first [exact X|apply L]); try (rewrite E'; first [exact X'|apply L']).
      exists r. rewrite D. exact D'.
  - apply (P_distinct.apart_tdt Debug t t' pid cc pid cc []); assumption.
  - destruct S as (H1 & H2 & H3 & H4), S' as (H1' & H2' & H3' & H4'). apply (P_distinct.apart_tot Debug t t' pid cc pid cc []); assumption.
Qed.

(** ** streams *)
Lemma same_sections pid cc ss ss' : pid < 8192 -> cc < 16 -> Forall framed ss -> Forall framed ss' -> concat (stream pid cc ss) = concat (stream pid cc ss') -> ss = ss'.
Proof.
  intros P C F F' E. apply (stream_inj pid P ss ss' cc C F F'). apply (same_packets pid cc ss _ F C E). apply stream_188; [|exact C]. eapply Forall_impl; [|exact F']. intros s X. apply X.
Qed.
Lemma made_looks c pid t ss : sendable t -> few t -> pid < 8192 -> c < 16 -> labelled t ss -> send Debug t pid c [] = Ok (next_cc pid c ss, concat (stream pid c ss)) -> looks t ss.
Proof.
  intros S W P C L D. destruct (send_looks t pid c _ S W P C D) as (ss' & K & E). apply (f_equal snd) in E. cbn [snd] in E.
  apply same_sections in E; [|exact P|exact C|apply L|apply K]. subst ss'. exact K.
Qed.
Lemma made_fresh c jobs pks c' : made Debug c jobs pks c' -> Forall (fun j => few (snd j)) jobs -> fresh pks.
Proof.
  intros M W. destruct M as [c|c pid t r ss pks c' S Hp Hc L D M]; [left; reflexivity|]. inversion W as [|? ? W1 _]; subst. cbn [snd] in W1.
  destruct (made_looks (c pid) pid t ss S W1 Hp Hc L D) as (_ & (s & a & -> & B & _) & _). right. exists pid, (c pid), s. eexists. rewrite stream_cons, <- app_assoc. split; [reflexivity|].
  split; [|auto]. destruct L as [L _]. inversion L. assumption.
Qed.
Lemma made_tells c jobs pks c1 : made Debug c jobs pks c1 -> Forall (fun j => few (snd j)) jobs -> forall d jobs' d1, made Debug d jobs' pks d1 -> Forall (fun j => few (snd j)) jobs' ->
  jobs = jobs' /\ Forall (fun j => c (fst j) = d (fst j)) jobs.
Proof.
  induction 1 as [c|c pid t r ss pks c1 S Hp Hc L D M IH]; intros W d jobs' d1 M' W'.
  - assert (Z : forall d jobs' pks d1, made Debug d jobs' pks d1 -> Forall (fun j => few (snd j)) jobs' -> pks = [] -> jobs' = []).
    { intros e js ps e1 Q WQ EQ. destruct Q as [|e p t js ss ps e1 S Hp Hc L D Q]; [reflexivity|]. exfalso. inversion WQ as [|? ? W1 _]; subst. cbn [snd] in W1.
      destruct (made_looks (e p) p t ss S W1 Hp Hc L D) as (_ & (s & a & -> & _) & _). rewrite stream_cons, <- app_assoc in EQ. apply app_eq_nil in EQ as [EQ _]. revert EQ. apply packets_some.
      destruct L as [L _]. inversion L as [|? ? L1 _]. apply L1. }
    rewrite (Z _ _ _ _ M' W' eq_refl). auto.
  - inversion W as [|? ? W1 W2]; subst. cbn [snd] in W1. destruct (made_looks (c pid) pid t ss S W1 Hp Hc L D) as (K0 & (s & a & -> & B & NB) & K1).
    remember (stream pid (c pid) (s :: a) ++ pks) as all eqn:EA. destruct M' as [d|d pid' t' r' ss' pks' d1 S' Hp' Hc' L' D' M'].
    + exfalso. rewrite stream_cons, <- app_assoc in EA. symmetry in EA. apply app_eq_nil in EA as [EA _]. revert EA. apply packets_some. destruct L as [L _]. inversion L as [|? ? L1 _]. apply L1.
    + inversion W' as [|? ? W1' W2']; subst. cbn [snd] in W1'. destruct (made_looks (d pid') pid' t' ss' S' W1' Hp' Hc' L' D') as (K0' & (s' & a' & -> & B' & NB') & K1').
      assert (F : Forall framed (s :: a)) by apply L. assert (F' : Forall framed (s' :: a')) by apply L'. inversion F as [|? ? F1 F2]; inversion F' as [|? ? F1' F2']; subst.
      rewrite !stream_cons, <- !app_assoc in EA. apply packets_inj in EA; try assumption. destruct EA as (-> & Ec & -> & EA). rewrite Ec in *.
      assert (X : a' = a /\ pks' = pks).
      { apply (cut pid Hp) in EA; [exact EA|apply N.mod_lt; discriminate|assumption|assumption|assumption|assumption|apply (made_fresh _ _ _ _ M' W2')|apply (made_fresh _ _ _ _ M W2)]. }
      destruct X as [-> ->].
      assert (T : t = t') by (apply (send_same t t' pid (c pid) _ (s :: a) S S' Hp Hc (conj K0 (conj (ex_intro _ s (ex_intro _ a (conj eq_refl (conj B NB)))) K1))
                                       (conj K0' (conj (ex_intro _ s (ex_intro _ a (conj eq_refl (conj B NB)))) K1')) D D')).
      subst t'. destruct (IH W2 _ _ _ M' W2') as [<- Q]. split; [reflexivity|]. constructor; [cbn [fst]; symmetry; exact Ec|].
      eapply Forall_impl; [|exact Q]. intros j Hj. cbn beta in Hj. unfold put in Hj. destruct (N.eqb_spec (fst j) pid) as [->|]; [symmetry; exact Ec|exact Hj].
Qed.
(** the same for the packets of one PID *)
Lemma made_filter m c jobs pks c1 : made m c jobs pks c1 -> forall pid d, d pid = c pid ->
  exists d1, made m d (filter (fun j => fst j =? pid) jobs) (filter (on pid) pks) d1.
Proof.
  induction 1 as [c|c p t r ss pks c1 S Hp Hc L D M IH]; intros pid d Ed; [exists d; constructor|].
  assert (R : running p (c p) (stream p (c p) ss)) by (apply stream_running; [exact Hp| |exact Hc]; eapply Forall_impl; [|exact (proj1 L)]; intros s X; apply X).
  rewrite filter_app. cbn [filter fst]. destruct (N.eqb_spec p pid) as [->|Ne].
  - rewrite (running_on pid _ _ R). destruct (IH pid (put d pid (next_cc pid (c pid) ss))) as [d1 Q]; [unfold put; rewrite N.eqb_refl; reflexivity|].
    exists d1. rewrite <- Ed in *. constructor; assumption.
  - rewrite (running_off p pid _ Ne _ R). cbn [app]. apply IH. unfold put. destruct (N.eqb_spec pid p); [congruence|exact Ed].
Qed.

(** ** both build profiles *)
Lemma send_alike t pid cc dst : P_profile.ag (send Debug t pid cc dst) (send Release t pid cc dst).
Proof.
  destruct t; cbn [send]; [apply P_profile.ag_pat_demux|apply P_profile.ag_pmt_demux|apply P_profile.ag_nit_demux|apply P_profile.ag_sdt_demux|apply P_profile.ag_eit_demux|apply P_profile.ag_tdt_demux|apply P_profile.ag_tot_demux].
Qed.
Lemma multi_alike : forall jobs c dst, P_profile.ag (multiplex Debug jobs c dst) (multiplex Release jobs c dst).
Proof.
  induction jobs as [|[pid t] r IH]; intros c dst; cbn [multiplex]; [apply P_profile.ag_refl|]. apply P_profile.ag_bind; [apply send_alike|]. intros [cc d]. apply IH.
Qed.
Lemma multi_mode m jobs c dst r r' : multiplex Debug jobs c dst = Ok r -> multiplex m jobs c dst = Ok r' -> r = r'.
Proof. intros E E'. destruct m; [congruence|]. destruct (multi_alike jobs c dst) as [A|A]; congruence. Qed.
Lemma jobs_tell m m' jobs jobs' c d dst c1 d1 out : jobs_ok jobs -> jobs_ok jobs' -> Forall (fun j => few (snd j)) jobs -> Forall (fun j => few (snd j)) jobs' ->
  (forall p, c p < 16) -> (forall p, d p < 16) -> multiplex Debug jobs c dst <> Panic -> multiplex Debug jobs' d dst <> Panic ->
  multiplex m jobs c dst = Ok (c1, out) -> multiplex m' jobs' d dst = Ok (d1, out) -> jobs = jobs' /\ Forall (fun j => c (fst j) = d (fst j)) jobs.
Proof.
  intros J J' W W' C D N N' E E'.
  assert (X : multiplex Debug jobs c dst = Ok (c1, out)) by (destruct m; [exact E|]; destruct (multi_alike jobs c dst) as [A|A]; [contradiction|]; rewrite A; exact E).
  assert (X' : multiplex Debug jobs' d dst = Ok (d1, out)) by (destruct m'; [exact E'|]; destruct (multi_alike jobs' d dst) as [A|A]; [contradiction|]; rewrite A; exact E').
  destruct (multi_made Debug jobs J c dst c1 out C X) as (pks & E1 & M). destruct (multi_made Debug jobs' J' d dst d1 out D X') as (pks' & E1' & M').
  rewrite E1 in E1'. apply app_inv_head in E1'. apply P_distinct.concat_188 in E1'; [|exact (made_188 _ _ _ _ _ M)|exact (made_188 _ _ _ _ _ M')]. subst pks'.
  exact (made_tells c jobs pks c1 M W d jobs' d1 M' W').
Qed.
Lemma pid_tells jobs jobs' c d dst dst' c1 d1 pks pks' pid : jobs_ok jobs -> jobs_ok jobs' -> Forall (fun j => few (snd j)) jobs -> Forall (fun j => few (snd j)) jobs' ->
  (forall p, c p < 16) -> (forall p, d p < 16) -> multiplex Debug jobs c dst = Ok (c1, dst ++ concat pks) -> multiplex Debug jobs' d dst' = Ok (d1, dst' ++ concat pks') ->
  Forall (fun x => length x = 188%nat) pks -> Forall (fun x => length x = 188%nat) pks' -> filter (on pid) pks = filter (on pid) pks' -> tables_on pid jobs = tables_on pid jobs'.
Proof.
  intros J J' W W' C D E E' P P' F.
  destruct (multi_made Debug jobs J c dst c1 _ C E) as (ps & E1 & M). apply app_inv_head in E1. apply P_distinct.concat_188 in E1; [|exact P|exact (made_188 _ _ _ _ _ M)]. subst ps.
  destruct (multi_made Debug jobs' J' d dst' d1 _ D E') as (ps & E1 & M'). apply app_inv_head in E1. apply P_distinct.concat_188 in E1; [|exact P'|exact (made_188 _ _ _ _ _ M')]. subst ps.
  destruct (made_filter _ _ _ _ _ M pid c eq_refl) as (c2 & Q). destruct (made_filter _ _ _ _ _ M' pid d eq_refl) as (d2 & Q'). rewrite <- F in Q'.
  assert (FF : forall l, Forall (fun j : N * table => few (snd j)) l -> Forall (fun j => few (snd j)) (filter (fun j => fst j =? pid) l)).
  { intros l H. rewrite Forall_forall in *. intros j Hj. apply filter_In in Hj. apply H, Hj. }
  destruct (made_tells _ _ _ _ Q (FF _ W) _ _ _ Q' (FF _ W')) as [G _]. unfold tables_on. rewrite G. reflexivity.
Qed.

(** ** present/following beyond 256 events *)
Lemma pf_app m t last : forall a b n, eit_pf m t last n (a ++ b) = (l <- eit_pf m t last n a ;; k <- eit_pf m t last (n + length a) b ;; Ok (l ++ k)).
Proof.
  induction a as [|i a IH]; intros b n.
  - cbn [app eit_pf bind length]. rewrite Nat.add_0_r. destruct (eit_pf m t last n b); reflexivity.
  - cbn [app eit_pf length]. destruct (eit_init m t) as [p| |]; cbn [bind]; try reflexivity. destruct (set (p_buffer p) 6 _) as [x| |]; cbn [bind]; try reflexivity.
    destruct (set x 7 last) as [y| |]; cbn [bind]; try reflexivity. destruct (set y 12 last) as [z| |]; cbn [bind]; try reflexivity. destruct (set z 13 _) as [u| |]; cbn [bind]; try reflexivity.
    destruct (eit_item_assemble m i u) as [v| |]; cbn [bind]; try reflexivity. destruct (psi_finalize _) as [q| |]; cbn [bind]; try reflexivity. rewrite IH. rewrite <- Nat.add_succ_comm.
    destruct (eit_pf m t last (S n) a) as [l| |]; cbn [bind]; try reflexivity. destruct (eit_pf m t last (S n + length a) b); reflexivity.
Qed.
Lemma pf_256 m t last : forall a n, eit_pf m t last (256 + n) a = eit_pf m t last n a.
Proof.
  induction a as [|i a IH]; intros n; [reflexivity|]. cbn [eit_pf]. replace (S (256 + n)) with (256 + S n)%nat by lia. rewrite IH.
  replace (cast U8 (N.of_nat (256 + n))) with (cast U8 (N.of_nat n)) by (unfold cast, U8; dlia). reflexivity.
Qed.
Lemma pf_header m t t' last : eit_table t = eit_table t' -> eit_version t = eit_version t' -> eit_pnr t = eit_pnr t' -> eit_tsid t = eit_tsid t' -> eit_onid t = eit_onid t' ->
  forall a n, eit_pf m t last n a = eit_pf m t' last n a.
Proof. intros E1 E2 E3 E4 E5. induction a as [|i a IH]; intros n; [reflexivity|]. cbn [eit_pf]. unfold eit_init. rewrite IH, E1, E2, E3, E4, E5. reflexivity. Qed.
Lemma send_app m pid : forall a b cc dst, eit_send m pid (a ++ b) cc dst = (' (cc, dst) <- eit_send m pid a cc dst ;; eit_send m pid b cc dst).
Proof. induction a as [|p a IH]; intros b cc dst; cbn [app eit_send bind]; [reflexivity|]. destruct (psi_demux m _ dst) as [[q d]| |]; cbn [bind]; try reflexivity. apply IH. Qed.
Definition with_events (t : eit) (l : list eit_item) : eit := mkEit (eit_table t) (eit_version t) (eit_pnr t) (eit_tsid t) (eit_onid t) l.
Lemma two_guides m t a b pid cc dst : pf_sendable (with_events t a) -> pf_sendable (with_events t b) -> length a = 256%nat -> length b = 256%nat -> pid < 8192 -> cc < 16 ->
  exists r, eit_demux m (with_events t (a ++ b)) pid cc dst = Ok r /\ (' (cc', out) <- eit_demux m (with_events t a) pid cc dst ;; eit_demux m (with_events t b) pid cc' out) = Ok r.
Proof.
  intros (H & F & _ & T & L) (H' & F' & _ & T' & L') La Lb Hp Hc. cbn [with_events eit_table] in T.
  destruct (eit_pf_demux m (with_events t a) pid cc dst H F T (proj2 L) Hp Hc) as [E _].
  set (ss := numbered _ 0 _) in E. assert (Hc' : next_cc pid cc ss < 16) by (apply N.mod_lt; discriminate).
  destruct (eit_pf_demux m (with_events t b) pid (next_cc pid cc ss) (dst ++ concat (stream pid cc ss)) H' F' T' (proj2 L') Hp Hc') as [E' _].
  set (ss' := numbered _ 0 _) in E'. unfold sends in E, E'. pose proof E as E0. pose proof E' as E0'. eexists. split; [|rewrite E; cbn [bind]; exact E'].
  unfold eit_demux, eit_sections in E, E' |- *. cbn [with_events eit_items eit_table] in *.
  assert (Q : (eit_table t =? 0x4E) || (eit_table t =? 0x4F) = true) by (clear - T; lia). rewrite Q in *.
  destruct a as [|i a]; [discriminate La|]. destruct b as [|j b]; [discriminate Lb|]. cbn [app]. rewrite La in E. rewrite Lb in E'.
  change (i :: a ++ j :: b) with ((i :: a) ++ j :: b). rewrite app_length, La, Lb.
  replace (cast U8 (N.of_nat (256 + 256 - 1))) with (cast U8 (N.of_nat (256 - 1))) by reflexivity.
  rewrite pf_app, La. rewrite (Nat.add_comm 0 256), pf_256.
  rewrite (pf_header m (mkEit (eit_table t) (eit_version t) (eit_pnr t) (eit_tsid t) (eit_onid t) ((i :: a) ++ j :: b)) (with_events t (i :: a))) by reflexivity.
  rewrite (pf_header m (mkEit (eit_table t) (eit_version t) (eit_pnr t) (eit_tsid t) (eit_onid t) ((i :: a) ++ j :: b)) (with_events t (j :: b))) by reflexivity.
  unfold with_events in *. destruct (eit_pf m _ _ 0 (i :: a)) as [l| |]; cbn [bind] in *; try discriminate. destruct (eit_pf m _ _ 0 (j :: b)) as [k| |]; cbn [bind] in *; try discriminate.
  rewrite send_app, E. cbn [bind]. exact E'.
Qed.
