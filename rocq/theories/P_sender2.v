(** Proofs: what can make a sender abort, from loops to packets. *)
From Verif Require Import Prelude Layout Facts S_text S_utils S_desc M_bytes M_ts M_crc M_utils M_text M_psi M_desc M_tables
  P_text2 P_utils P_crc P_desc S_sender P_sender.

Lemma descs_said ds : descs_size ds = sum said ds.
Proof.
  unfold descs_size. enough (forall k, fold_left (fun acc d => (acc + desc_size d)%nat) ds k = (k + sum said ds)%nat) by (rewrite H; reflexivity).
  induction ds as [|d ds IH]; intros k; cbn [fold_left]; [unfold sum; cbn [fold_right]; lia|]. rewrite IH, size_said. unfold sum. cbn [fold_right]. lia.
Qed.

(** ** items *)
Ltac loop T := eapply st_then; [apply st_descs; [exact T|eassumption]|]; intros [? ?]; cbn [fst]; intros ?.
Lemma st_pati i n b : B n b -> st false (pat_item_assemble i b) (B (n + 4)).
Proof. intros H. unfold pat_item_assemble. cbv zeta. pose proof (B_at _ _ H). pose proof (B_resize n b 4 H). step. fin. auto. Qed.
Lemma st_pmti m i n b : pmti_type i < 2 ^ 8 -> descs_typed (pmti_descs i) -> B n b ->
  st (dbg m && loop_over (pmti_descs i)) (pmt_item_assemble m i b) (B (n + (5 + sum written (pmti_descs i)))).
Proof.
  intros T1 T2 H. change (2 ^ 8) with 256 in *. unfold pmt_item_assemble. cbv zeta. pose proof (B_at _ _ H). pose proof (B_resize n b 5 H). do 2 step. loop T2. fin. B_goal.
Qed.
Lemma st_niti m i n b : descs_typed (niti_descs i) -> B n b ->
  st (dbg m && loop_over (niti_descs i)) (nit_item_assemble m i b) (B (n + (6 + sum written (niti_descs i)))).
Proof.
  intros T2 H. unfold nit_item_assemble. cbv zeta. pose proof (B_at _ _ H). pose proof (B_resize n b 6 H). do 2 step. loop T2. fin. B_goal.
Qed.
Lemma st_sdti m i n b : sdti_pf i < 2 ^ 8 -> descs_typed (sdti_descs i) -> B n b ->
  st (dbg m && loop_over (sdti_descs i)) (sdt_item_assemble m i b) (B (n + (5 + sum written (sdti_descs i)))).
Proof.
  intros T1 T2 H. change (2 ^ 8) with 256 in *. unfold sdt_item_assemble. cbv zeta. pose proof (B_at _ _ H). pose proof (B_resize n b 5 H). do 2 step. loop T2. fin. B_goal.
Qed.
Lemma st_eiti m i n b : eiti_start i < 2 ^ 64 -> eiti_duration i < 2 ^ 32 -> descs_typed (eiti_descs i) -> B n b ->
  st (dbg m && loop_over (eiti_descs i)) (eit_item_assemble m i b) (B (n + event_written i)).
Proof.
  intros T1 T2 T3 H. unfold eit_item_assemble. cbv zeta. pose proof (B_at _ _ H). pose proof (B_resize n b 12 H). step.
  eapply st_seq; [apply st_mjd; exact T1|]. intros ? _. step. eapply st_seq; [apply st_time6, cast32|]. intros ? _. step.
  eapply st_seq; [apply st_time6; exact T2|]. intros ? _. step. loop T3. fin. unfold event_written. B_goal.
Qed.

(** ** sections under construction: at least the header, no size yet *)
Definition sec (n : nat) (p : psi) : Prop := (n <= length (p_buffer p))%nat /\ bytes (p_buffer p) /\ p_size p = 0%nat.
Definition sect (n : nat) (p : psi) : Prop := B n (p_buffer p) /\ p_size p = 0%nat.
Lemma sec_B n p k : sect n p -> (k <= n)%nat -> sec k p.
Proof. intros ((L & H) & Z) K. split; [lia|]. split; assumption. Qed.

Lemma st_psi_new m table n version : table < 2 ^ 8 -> (3 <= n)%nat -> st false (psi_new m table n version) (sect n).
Proof.
  intros T N. unfold psi_new, dassert. replace (3 <=? n)%nat with true by (symmetry; apply Nat.leb_le; exact N).
  assert (E : (match m with Debug => if true then Ok tt else Panic | Release => Ok tt end) = Ok tt) by (destruct m; reflexivity). rewrite E. cbn [bind]. cbv zeta.
  change (2 ^ 8) with 256 in T.
  assert (H : B n (resize [] n 0)) by (pose proof (B_resize 0 [] n (conj eq_refl (Forall_nil _))) as Z; exact Z).
  do 2 step.
  eapply st_seq with (Q := B n).
  - destruct (Nat.leb_spec 6 n); [|apply st_ok; assumption]. fin; [|auto]. apply land_lt_r; reflexivity.
  - intros x X. apply st_ok. split; [exact X|reflexivity].
Qed.

Section Pack.
Context {A : Type} (limit : nat) (size : A -> nat) (assemble : A -> list N -> res (list N)) (init : res psi) (ok : A -> Prop) (over : A -> bool)
  (P : psi -> Prop) (m : mode)
  (Hi : st false init P)
  (Ha : forall i p, ok i -> P p -> st (dbg m && over i) (assemble i (p_buffer p)) (fun b => P (with_buffer p b))).
Lemma st_pack : forall items done cur, Forall ok items -> Forall P done -> P cur ->
  st (dbg m && existsb over items) (pack limit size assemble init items done cur) (fun l => Forall P l /\ l <> []).
Proof.
  induction items as [|i r IH]; intros done cur Ho Hd Hc; cbn [pack existsb].
  - rewrite andb_false_r. apply st_ok. split; [apply Forall_app; split; [exact Hd|constructor; [exact Hc|constructor]]|]. destruct done; discriminate.
  - inversion Ho as [|? ? O1 O2]; subst. rewrite andb_orb_distrib_r. destruct (length (p_buffer cur) + size i <=? limit)%nat.
    + eapply st_bind; [apply Ha; [exact O1|exact Hc]|]. intros b Hb. exact (IH done _ O2 Hd Hb).
    + eapply st_seq; [exact Hi|]. intros n Hn. eapply st_bind; [apply Ha; [exact O1|exact Hn]|]. intros b Hb.
      apply IH; [exact O2| |exact Hb]. apply Forall_app. split; [exact Hd|constructor; [exact Hc|constructor]].
Qed.
End Pack.

(** ** the CRC *)
Definition full (p : psi) : Prop := (1 <= p_size p)%nat /\ (p_size p <= length (p_buffer p))%nat /\ bytes (p_buffer p).
Lemma st_sub a b : (b <= a)%nat -> st false (sub_idx a b) (fun x => x = (a - b)%nat).
Proof. intros H. unfold sub_idx. destruct (Nat.leb_spec b a); [|lia]. apply st_ok. reflexivity. Qed.
Lemma st_slice n l a b : B n l -> (a <= b)%nat -> (b <= n)%nat -> st false (slice l a b) (B (b - a)).
Proof.
  intros (L & H) X Y. unfold slice. destruct (Nat.leb_spec a b); [|lia]. destruct (Nat.leb_spec b (length l)); [|lia]. apply st_ok. split.
  - rewrite firstn_length, skipn_length. lia.
  - apply bytes_firstn, bytes_skipn, H.
Qed.
Lemma st_copy n l a b src : B n l -> (a <= b)%nat -> (b <= n)%nat -> B (b - a) src -> st false (copy_from l a b src) (B n).
Proof.
  intros (L & H) X Y (S1 & S2). unfold copy_from. destruct (Nat.leb_spec a b); [|lia]. destruct (Nat.leb_spec b (length l)); [|lia].
  destruct (Nat.eqb_spec (b - a) (length src)); [|lia]. apply st_ok. split.
  - rewrite !app_length, firstn_length, skipn_length. lia.
  - apply bytes_app. split; [apply bytes_firstn, H|]. apply bytes_app. split; [exact S2|apply bytes_skipn, H].
Qed.
Lemma st_finalize p : sec 3 p -> st false (psi_finalize p) full.
Proof.
  intros (L & H & Z). unfold psi_finalize. rewrite Z. cbn [Nat.eqb]. cbv zeta.
  assert (H0 : B (length (p_buffer p)) (p_buffer p)) by (split; [reflexivity|exact H]).
  pose proof (B_resize _ _ 4 H0) as H1. set (n := length (p_buffer p)) in *.
  eapply st_seq with (Q := fun q => B (n + 4) (p_buffer q) /\ p_size q = (n + 4)%nat).
  - eapply st_seq; [eapply st_get; [exact H1|lia]|]. intros x X. eapply st_seq; [apply st_sub; lia|]. intros k K.
    step. apply st_ok. cbn [p_buffer p_size]. auto.
  - intros q (Q1 & Q2). rewrite Q2. eapply st_seq; [apply st_sub; lia|]. intros k ->.
    eapply st_seq; [eapply st_slice; [exact Q1|lia|lia]|]. intros h (_ & Hh). rewrite crc32b_spec by exact Hh. cbn [bind].
    step. apply st_ok. destruct H2 as (Y1 & Y2). split; [|split]; cbn [with_buffer p_size p_buffer]; [lia|lia|exact Y2].
Qed.

(** ** packets *)
Lemma st_pid m pid n l : B n l -> (3 <= n)%nat -> st (dbg m && (8192 <=? pid)) (set_pid m l pid) (B n).
Proof.
  intros H L. unfold set_pid.
  assert (K : st false (b1 <- get l 1 ;; ts <- set l 1 (N.lor (N.land b1 224) (cast U8 (N.shiftr pid 8))) ;; set ts 2 (cast U8 pid)) (B n)).
  { eapply st_seq; [eapply st_get; [exact H|lia]|]. intros x X. cbv beta in X. eapply st_seq; [apply st_set; [exact H|lia|]|].
    - apply lor8; [apply land_lt_l; exact X|apply cast8].
    - intros a A. fin. auto. }
  destruct m; cbn [dassert dbg andb]; [|exact K]. rewrite N.ltb_antisym. destruct (8192 <=? pid); cbn [negb bind]; [reflexivity|exact K].
Qed.
Lemma st_cc m cc n l : B n l -> (4 <= n)%nat -> st (dbg m && (16 <=? cc)) (set_cc m l cc) (B n).
Proof.
  intros H L. unfold set_cc.
  assert (K : st false (b3 <- get l 3 ;; set l 3 (N.lor (N.land b3 240) (N.land cc 15))) (B n)).
  { eapply st_seq; [eapply st_get; [exact H|lia]|]. intros x X. cbv beta in X. apply st_set; [exact H|lia|].
    apply lor8; [apply land_lt_l; exact X|apply land_lt_r; reflexivity]. }
  destruct m; cbn [dassert dbg andb]; [|exact K]. rewrite N.ltb_antisym. destruct (16 <=? cc); cbn [negb bind]; [reflexivity|exact K].
Qed.
Lemma st_on s n l i (f : list N -> res (list N)) : B n l -> (i <= n)%nat -> (forall t, B (n - i) t -> st s (f t) (B (n - i))) -> st s (on_from l i f) (B n).
Proof.
  intros (L & H) I F. unfold on_from, slice_from. destruct (Nat.leb_spec i (length l)); [|lia]. cbn [bind].
  eapply st_then; [apply F; split; [rewrite skipn_length; lia|apply bytes_skipn, H]|]. intros t (T & Tb). apply st_ok. split.
  - rewrite app_length, firstn_length. lia.
  - apply bytes_app. split; [apply bytes_firstn, H|exact Tb].
Qed.
Lemma st_or b i v n l : B n l -> (i < n)%nat -> b = i -> v < 256 -> st false (x <- get l i ;; set l b (N.lor x v)) (B n).
Proof. intros H I -> V. eapply st_seq; [eapply st_get; [exact H|exact I]|]. intros x X. cbv beta in X. apply st_set; [exact H|exact I|apply lor8; assumption]. Qed.


Lemma B_len a b l : B a l -> a = b -> B b l. Proof. intros H <-. exact H. Qed.
Lemma st_stop {A C} (e : res A) (k : A -> res C) Q R : st true e Q -> st true (bind e k) R.
Proof. cbn [st]. intros ->. reflexivity. Qed.
Lemma st_orb i v n l : B n l -> (i < n)%nat -> v < 256 -> st false (x <- get l i ;; set l i (N.lor x v)) (B n).
Proof. intros H I V. apply st_or; auto. Qed.
Lemma loop_bad p cc dst n skip fuel : address_over (p_pid p) cc = true -> (0 < p_size p)%nat -> B n dst -> (skip + 4 <= n)%nat ->
  demux_loop (S fuel) Debug p cc dst 0 skip = Panic.
Proof.
  intros A Z H L. cbn [demux_loop]. destruct (Nat.ltb_spec 0 (p_size p)); [|lia].
  assert (K : forall k : list N -> res (list N * nat * N),
    st true (dst0 <- set dst skip 71 ;; dst1 <- on_from dst0 skip (fun t => set_pid Debug t (p_pid p)) ;; dst2 <- on_from dst1 skip set_payload_1 ;;
             dst3 <- on_from dst2 skip (fun t => set_cc Debug t cc) ;; k dst3) (fun _ => True)).
  { intros k. step. unfold address_over in A. destruct (8192 <=? p_pid p) eqn:E.
    - eapply st_stop. eapply st_on; [eassumption|lia|]. intros t T. eapply (st_eq (dbg Debug && (8192 <=? p_pid p))); [rewrite E; reflexivity|]. apply st_pid; [exact T|lia].
    - cbn [orb] in A. eapply st_seq.
      { eapply st_on; [eassumption|lia|]. intros t T. eapply (st_eq (dbg Debug && (8192 <=? p_pid p))); [rewrite E; reflexivity|]. apply st_pid; [exact T|lia]. }
      intros b Hb. eapply st_seq.
      { eapply st_on; [exact Hb|lia|]. intros t T. apply st_orb; [exact T|lia|reflexivity]. }
      intros c Hc. eapply st_stop. eapply st_on; [exact Hc|lia|]. intros t T. eapply (st_eq (dbg Debug && (16 <=? cc))); [rewrite A; reflexivity|]. apply st_cc; [exact T|lia]. }
  exact (K _).
Qed.
Lemma address_ok m pid cc : dbg m && address_over pid cc = false -> dbg m && (8192 <=? pid) = false /\ dbg m && (16 <=? cc) = false.
Proof. unfold address_over. destruct (dbg m); [|auto]. cbn [andb]. intros H. apply orb_false_elim in H. exact H. Qed.
Lemma address_next m pid cc c : dbg m && address_over pid cc = false -> dbg m && address_over pid (N.land c 15) = false.
Proof.
  intros H. destruct (address_ok _ _ _ H) as (H1 & _). unfold address_over. rewrite andb_orb_distrib_r, H1. cbn [orb].
  replace (16 <=? N.land c 15) with false by (symmetry; apply N.leb_gt; apply land_lt_r; reflexivity). apply andb_false_r.
Qed.
Lemma st_next m cc pid : cc < 256 -> dbg m && address_over pid cc = false -> st false (addw U8 m cc 1) (fun _ => True).
Proof.
  intros C H. destruct (address_ok _ _ _ H) as (_ & H1). unfold addw. destruct (N.ltb_spec (cc + 1) U8) as [Z|Z]; [apply st_ok; trivial|].
  destruct m; [|apply st_ok; trivial]. cbn [dbg andb] in H1. apply N.leb_gt in H1. unfold U8 in Z. lia.
Qed.
(** the loop at the head of packet [k] *)
Lemma st_loop m p : full p -> forall fuel k base cc dst,
  dbg m && address_over (p_pid p) cc = false -> cc < 256 -> B (base + 188 * ((p_size p + 1 + 183) / 184)) dst ->
  (184 * k - 1 < p_size p)%nat -> (p_size p < 184 * k - 1 + fuel)%nat ->
  st false (demux_loop fuel m p cc dst (184 * k - 1) (base + 188 * k))
     (fun r => B (base + 188 * ((p_size p + 1 + 183) / 184)) (fst (fst r)) /\
               (base + 188 * ((p_size p + 1 + 183) / 184) <= snd (fst r) + 188)%nat /\
               (snd (fst r) <= base + 188 * ((p_size p + 1 + 183) / 184))%nat /\ snd r < 16).
Proof.
  intros (F1 & F2 & F3). set (T := ((p_size p + 1 + 183) / 184)%nat).
  assert (HT : (184 * T <= p_size p + 184 /\ p_size p + 184 < 184 * T + 184)%nat).
  { unfold T. pose proof (Nat.div_mod (p_size p + 1 + 183) 184 ltac:(discriminate)). pose proof (Nat.mod_upper_bound (p_size p + 1 + 183) 184 ltac:(discriminate)). lia. }
  clearbody T. induction fuel as [|fuel IH]; intros k base cc dst G C H K F; [lia|]. cbn [demux_loop]. destruct (Nat.ltb_spec (184 * k - 1) (p_size p)) as [_|Z]; [|lia].
  destruct (address_ok _ _ _ G) as (G1 & G2).
  step.
  eapply st_seq. { eapply st_on; [eassumption|lia|]. intros t Ht. eapply st_eq; [exact G1|]. apply st_pid; [exact Ht|lia]. } intros d1 D1.
  eapply st_seq. { eapply st_on; [exact D1|lia|]. intros t Ht. apply st_orb; [exact Ht|lia|reflexivity]. } intros d2 D2.
  eapply st_seq. { eapply st_on; [exact D2|lia|]. intros t Ht. eapply st_eq; [exact G2|]. apply st_cc; [exact Ht|lia]. } intros d3 D3.
  eapply st_seq; [eapply st_next; [exact C|exact G]|]. intros c1 _. cbv zeta.
  eapply st_seq with (Q := B (base + 188 * T)).
  { destruct (184 * k - 1 =? 0)%nat; [|apply st_ok; exact D3]. eapply st_on; [exact D3|lia|]. intros t Ht. apply st_orb; [exact Ht|lia|reflexivity]. }
  intros d4 D4. set (h := if (184 * k - 1 =? 0)%nat then 5%nat else 4%nat).
  assert (Hh : (184 * k - 1 + (188 - h) = 184 * (S k) - 1 /\ (h = 4 \/ h = 5))%nat).
  { unfold h. destruct (Nat.eqb_spec (184 * k - 1) 0); lia. }
  clearbody h.
  assert (FB : B (length (p_buffer p)) (p_buffer p)) by (split; [reflexivity|exact F3]).
  eapply st_seq; [eapply st_slice; [exact FB|lia|lia]|]. intros src S1.
  eapply st_seq. { eapply st_copy; [exact D4|lia|lia|]. refine (B_len _ _ _ S1 _). lia. }
  intros d5 D5. pose proof (address_next m (p_pid p) cc c1 G) as G'. assert (C' : N.land c1 15 < 16) by (apply land_lt_r; reflexivity).
  destruct (Nat.ltb_spec (184 * S k - 1) (p_size p)) as [M|M].
  - replace (184 * k - 1 + Nat.min (p_size p - (184 * k - 1)) (188 - h))%nat with (184 * S k - 1)%nat by lia.
    replace (base + 188 * k + h + Nat.min (p_size p - (184 * k - 1)) (188 - h))%nat with (base + 188 * S k)%nat by lia.
    apply IH; [exact G'|lia|exact D5|exact M|lia].
  - destruct fuel as [|fuel]; [lia|]. cbn [demux_loop]. destruct (Nat.ltb_spec (184 * k - 1 + Nat.min (p_size p - (184 * k - 1)) (188 - h)) (p_size p)) as [Y|Y]; [lia|].
    apply st_ok. cbn [fst snd]. split; [exact D5|]. split; [|split]; [lia|lia|exact C'].
Qed.
Lemma st_demux m p dst : full p -> bytes dst -> p_cc p < 256 ->
  st (dbg m && address_over (p_pid p) (p_cc p)) (psi_demux m p dst) (fun r => bytes (snd r) /\ p_cc (fst r) < 16 /\ p_pid (fst r) = p_pid p).
Proof.
  intros F D C. unfold psi_demux. cbv zeta. set (T := ((p_size p + 1 + 183) / 184)%nat).
  assert (HT : (184 * T <= p_size p + 184 /\ p_size p + 184 < 184 * T + 184)%nat).
  { unfold T. pose proof (Nat.div_mod (p_size p + 1 + 183) 184 ltac:(discriminate)). pose proof (Nat.mod_upper_bound (p_size p + 1 + 183) 184 ltac:(discriminate)). lia. }
  assert (H0 : B (length dst) dst) by (split; [reflexivity|exact D]). pose proof (B_resize _ _ (188 * T) H0) as H1. destruct F as (F1 & F2 & F3).
  destruct (dbg m && address_over (p_pid p) (p_cc p)) eqn:G.
  - destruct m; [|discriminate]. cbn [dbg andb] in G. cbn [st]. rewrite (loop_bad p (p_cc p) _ _ (length dst) (p_size p) G F1 H1) by lia. reflexivity.
  - pose proof (st_loop m p (conj F1 (conj F2 F3)) (S (p_size p)) 0 (length dst) (p_cc p) _ G C H1) as L. fold T in L.
    change (184 * 0 - 1)%nat with 0%nat in L. replace (length dst + 188 * 0)%nat with (length dst) in L by lia.
    eapply st_seq; [apply L; lia|]. intros [[d k] c]. cbn [fst snd]. intros (L1 & L2 & L3 & L4). pose proof (B_at _ _ L1) as LL.
    eapply st_seq; [apply st_sub; lia|]. intros r ->.
    eapply st_seq with (Q := B (length dst + 188 * T)).
    + destruct (0 <? length d - k)%nat; [|apply st_ok; exact L1].
      assert (FP : B 188 FILL_PACKET) by (split; [reflexivity|apply bytes_repeat; reflexivity]).
      eapply st_seq; [eapply st_slice; [exact FP|lia|lia]|]. intros f Hf. eapply st_copy; [exact L1|lia|lia|]. refine (B_len _ _ _ Hf _). lia.
    + intros d' (_ & D'). apply st_ok. cbn [fst snd with_cc p_cc p_pid]. auto.
Qed.

(** ** sections to packets *)
Lemma address_again pid cc c : c < 16 -> address_over pid cc = address_over pid cc || address_over pid c.
Proof. intros H. unfold address_over. apply N.leb_gt in H. rewrite H. destruct (8192 <=? pid), (16 <=? cc); reflexivity. Qed.
Lemma st_sections m last pid : last < 256 -> forall l n cc dst, Forall (sec 8) l -> bytes dst -> cc < 256 ->
  st (dbg m && (negb (match l with [] => true | _ => false end) && address_over pid cc)) (demux_sections m last pid n l cc dst) (fun _ => True).
Proof.
  intros Hl. induction l as [|p r IH]; intros n cc dst HS D C; cbn [demux_sections negb andb].
  - rewrite andb_false_r. apply st_ok. trivial.
  - inversion HS as [|? ? (P1 & P2 & P3) HR]; subst. set (k := length (p_buffer p)) in *.
    assert (H0 : B k (p_buffer p)) by (split; [reflexivity|exact P2]).
    step. step. eapply st_seq; [apply st_finalize; split; [|split]; cbn [with_buffer p_buffer p_size]|].
    + destruct H1 as (X & _). lia.
    + apply H1.
    + exact P3.
    + intros q (Q1 & Q2 & Q3).
      assert (E : dbg m && address_over pid cc = dbg m && address_over pid cc || dbg m && (negb (match r with [] => true | _ => false end) && address_over pid 0)).
      { destruct (dbg m); [|reflexivity]. cbn [andb]. unfold address_over. destruct (8192 <=? pid), (16 <=? cc), r; reflexivity. }
      rewrite E. eapply st_bind; [exact (st_demux m (with_cc (with_pid q pid) cc) dst (conj Q1 (conj Q2 Q3)) D C)|]. intros [q' d']. cbn [fst snd with_cc with_pid p_pid]. intros (W1 & W2 & W3).
      eapply st_eq; [|apply (IH (S n) (p_cc q') d' HR W1); lia]. do 2 f_equal. unfold address_over. apply N.leb_gt in W2. rewrite W2. reflexivity.
Qed.
Lemma st_table m l pid cc dst : Forall (sec 8) l -> l <> [] -> bytes dst -> cc < 256 -> st (dbg m && address_over pid cc) (demux_table m l pid cc dst) (fun _ => True).
Proof.
  intros H N D C. unfold demux_table. destruct l as [|p r]; [congruence|]. apply (st_sections m _ pid (cast8 _) (p :: r) 0 cc dst H D C).
Qed.
Lemma st_table_of m (f : res (list psi)) over pid cc dst : st (dbg m && over) f (fun l => Forall (sec 8) l /\ l <> []) -> bytes dst -> cc < 256 ->
  st (dbg m && (over || address_over pid cc)) (l <- f ;; demux_table m l pid cc dst) (fun _ => True).
Proof.
  intros H D C. rewrite andb_orb_distrib_r. eapply st_bind; [exact H|]. intros l (L1 & L2). apply st_table; assumption.
Qed.
