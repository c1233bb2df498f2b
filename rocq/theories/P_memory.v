(** Buffers whose memory does not show. *)
From Verif Require Import Prelude Layout Facts M_ts M_reader M_cbr S_memory.
From Verif Require Import P_psi.

Lemma put_same (b c d : list N) a : firstn a b = firstn a c -> (a + length d <= length b)%nat -> length b = length c ->
  let b' := firstn a b ++ d ++ skipn (a + length d) b in let c' := firstn a c ++ d ++ skipn (a + length d) c in
  length b' = length b /\ length c' = length c /\ firstn (a + length d) b' = firstn (a + length d) c' /\
  skipn (a + length d) b' = skipn (a + length d) b /\ skipn (a + length d) c' = skipn (a + length d) c.
Proof.
  intros E L LL. cbn zeta.
  assert (G : forall x, (a + length d <= length x)%nat -> length (firstn a x ++ d ++ skipn (a + length d) x) = length x /\
     firstn (a + length d) (firstn a x ++ d ++ skipn (a + length d) x) = firstn a x ++ d /\
     skipn (a + length d) (firstn a x ++ d ++ skipn (a + length d) x) = skipn (a + length d) x).
  { intros x Lx. assert (A : length (firstn a x ++ d) = (a + length d)%nat) by (rewrite app_length, firstn_length; lia).
    rewrite !app_assoc. split; [rewrite app_length, A, skipn_length; lia|]. rewrite <- A at 1 3. split.
    - rewrite firstn_app, firstn_all, Nat.sub_diag. cbn [firstn]. apply app_nil_r.
    - rewrite skipn_app, skipn_all, Nat.sub_diag. reflexivity. }
  destruct (G b L) as (B1 & B2 & B3). destruct (G c ltac:(lia)) as (C1 & C2 & C3).
  split; [exact B1|]. split; [exact C1|]. split; [rewrite B2, C2, E; reflexivity|]. split; [exact B3|exact C3].
Qed.

Lemma src_read_len s n s' d : src_read s n = (s', inl d) -> (length d <= n)%nat.
Proof. unfold src_read. destruct (s_sched s) as [|[k|e] l]; intros [= _ <-]; rewrite firstn_length; lia. Qed.

(** one read of the reader inside *)
Lemma read_at_same s b c a e : length b = length c -> firstn a b = firstn a c -> (a <= e <= length b)%nat ->
  exists s' b' c' r k, read_at s b a e = Ok (s', b', r) /\ read_at s c a e = Ok (s', c', r) /\ length b' = length b /\ length c' = length c /\
    (a <= k <= e)%nat /\ firstn k b' = firstn k c' /\ skipn k b' = skipn k b /\ skipn k c' = skipn k c /\ (forall n, r = IoOk n -> k = (a + n)%nat).
Proof.
  intros LL E H. unfold read_at. rewrite <- LL. destruct (Nat.leb_spec a e); [|lia]. destruct (Nat.leb_spec e (length b)); [|lia]. cbn [andb].
  destruct (src_read s (e - a)) as [s' [d|x]] eqn:R.
  - apply src_read_len in R. destruct (put_same b c d a E ltac:(lia) LL) as (P1 & P2 & P3 & P4 & P5).
    eexists _, _, _, _, (a + length d)%nat. split; [reflexivity|]. split; [reflexivity|]. split; [exact P1|]. split; [congruence|]. split; [lia|].
    split; [exact P3|]. split; [exact P4|]. split; [exact P5|]. intros n [= <-]. reflexivity.
  - eexists _, _, _, _, a. split; [reflexivity|]. split; [reflexivity|]. repeat (split; [reflexivity || lia || assumption|]). discriminate.
Qed.

Lemma get_same (b c : list N) k i : firstn k b = firstn k c -> (i < k)%nat -> get b i = get c i.
Proof.
  intros E H. assert (N : nth_error b i = nth_error c i).
  { rewrite <- (firstn_skipn k b), <- (firstn_skipn k c). rewrite <- E.
    destruct (Nat.lt_ge_cases i (length (firstn k b))) as [L|L]; [rewrite !nth_error_app1 by assumption; reflexivity|].
    pose proof L as Lb. pose proof (f_equal (@length N) E) as EL. rewrite !firstn_length in *.
    rewrite (firstn_all2 b) by lia. rewrite (skipn_all2 b) by lia. rewrite (skipn_all2 c) by lia. reflexivity. }
  unfold get. rewrite N. reflexivity.
Qed.
Lemma firstn_le (b c : list N) k j : firstn k b = firstn k c -> (j <= k)%nat -> firstn j b = firstn j c.
Proof. intros E H. replace j with (Nat.min j k) by lia. rewrite <- !firstn_firstn, E. reflexivity. Qed.
Lemma skipn_le (b c : list N) k j : skipn k b = skipn k c -> (k <= j)%nat -> skipn j b = skipn j c.
Proof. intros E H. replace j with ((j - k) + k)%nat by lia. rewrite <- !skipn_skipn, E. reflexivity. Qed.

Ltac fin := repeat match goal with |- _ /\ _ => split end; try reflexivity; try lia; try assumption; try congruence; try (intros; congruence).
Lemma hunt_same : forall fuel s b c, length b = length c -> (1 <= length b)%nat ->
  (hunt fuel s b = Hang /\ hunt fuel s c = Hang) \/
  (hunt fuel s b = Panic /\ hunt fuel s c = Panic) \/
  exists s' r b' c' k, hunt fuel s b = Ok (s', b', r) /\ hunt fuel s c = Ok (s', c', r) /\ length b' = length b /\ length c' = length c /\
    (k <= 1)%nat /\ firstn k b' = firstn k c' /\ skipn k b' = skipn k b /\ skipn k c' = skipn k c /\ (r = None -> k = 1%nat) /\ (forall n, r = Some (IoOk n) -> n = 0%nat).
Proof.
  induction fuel as [|fuel IH]; intros s b c LL L; [left; split; reflexivity|]. cbn [hunt].
  destruct (read_at_same s b c 0 1 LL eq_refl ltac:(lia)) as (s1 & b1 & c1 & r & k & -> & -> & L1 & L2 & K & F & Sb & Sc & N). cbn [bind].
  destruct r as [n|e].
  - specialize (N n eq_refl). destruct n as [|n].
    + right. right. eexists _, _, b1, c1, k. fin.
    + assert (k1 : k = 1%nat) by lia. clear N. subst k. unfold is_sync. rewrite (get_same b1 c1 1 0 F ltac:(lia)). destruct (get c1 0) as [x| |]; cbn [bind].
      * destruct (x =? _).
        -- right. right. eexists _, _, b1, c1, 1%nat. fin.
        -- destruct (IH s1 b1 c1 ltac:(lia) ltac:(lia)) as [G|[G|(s' & r' & b' & c' & k & G1 & G2 & G3 & G4 & G5 & G6 & G7 & G8 & G9 & G10)]];
             [left; exact G|right; left; exact G|right; right].
           rewrite G1, G2. destruct (Nat.eq_dec k 1) as [->|K1].
           ++ eexists _, _, b', c', 1%nat. fin.
           ++ assert (k = 0%nat) by lia. subst k. cbn [skipn] in G7, G8. subst b' c'.
              eexists _, _, b1, c1, 1%nat. fin.
      * right. left. split; reflexivity.
      * left. split; reflexivity.
  - right. right. eexists _, _, b1, c1, k. fin.
Qed.

Lemma fill_same : forall fuel s b c j, length b = length c -> (j <= 188 <= length b)%nat -> firstn j b = firstn j c ->
  (fill fuel s b j = Hang /\ fill fuel s c j = Hang) \/
  exists s' r b' c' k, fill fuel s b j = Ok (s', b', r) /\ fill fuel s c j = Ok (s', c', r) /\ length b' = length b /\ length c' = length c /\
    (j <= k <= 188)%nat /\ firstn k b' = firstn k c' /\ skipn k b' = skipn k b /\ skipn k c' = skipn k c /\ (r = None -> k = 188%nat) /\ (forall n, r = Some (IoOk n) -> n = 0%nat).
Proof.
  induction fuel as [|fuel IH]; intros s b c j LL L F0; [left; split; reflexivity|]. cbn [fill].
  destruct (Nat.eqb_spec j 188) as [->|J].
  { right. eexists _, _, b, c, 188%nat. fin. }
  destruct (read_at_same s b c j 188 LL F0 ltac:(lia)) as (s1 & b1 & c1 & r & k & -> & -> & L1 & L2 & K & F & Sb & Sc & N). cbn [bind].
  destruct r as [n|e].
  - specialize (N n eq_refl). destruct n as [|n].
    + right. eexists _, _, b1, c1, k. fin.
    + rewrite <- N. destruct (IH s1 b1 c1 k ltac:(lia) ltac:(lia) F) as [G|(s' & r' & b' & c' & k' & G1 & G2 & G3 & G4 & G5 & G6 & G7 & G8 & G9 & G10)]; [left; exact G|right].
      rewrite G1, G2. eexists _, _, b', c', k'. split; [reflexivity|]. split; [reflexivity|]. split; [congruence|]. split; [congruence|]. split; [lia|]. split; [exact G6|].
      split; [rewrite G7; apply (skipn_le _ _ k); [exact Sb|lia]|]. split; [rewrite G8; apply (skipn_le _ _ k); [exact Sc|lia]|]. split; assumption.
  - right. eexists _, _, b1, c1, k. fin.
Qed.

Lemma pid_same b c : firstn 188 b = firstn 188 c -> get_pid b = get_pid c.
Proof. intros E. unfold get_pid. rewrite (get_same b c 188 1 E), (get_same b c 188 2 E) by lia. reflexivity. Qed.

Lemma ts_read_careful : careful ts_read.
Proof.
  intros s b c LL. unfold same_read, ts_read. rewrite <- LL. destruct (Nat.leb_spec 188 (length b)) as [L|L]; [|left; split; reflexivity].
  destruct (hunt_same (S (length (s_data s))) s b c LL ltac:(lia)) as [[-> ->]|[[-> ->]|(s1 & r1 & b1 & c1 & k & -> & -> & L1 & L2 & K & F & Sb & Sc & N1 & N2)]]; cbn [bind];
    [right; left; split; reflexivity|left; split; reflexivity|].
  destruct r1 as [r1|].
  - right. right. eexists _, _, b1, c1, k. repeat (split; [reflexivity || congruence || assumption|]). intros n ->. rewrite (N2 n eq_refl). lia.
  - specialize (N1 eq_refl). subst k.
    destruct (fill_same 189 s1 b1 c1 1 ltac:(lia) ltac:(lia) F) as [[-> ->]|(s2 & r2 & b2 & c2 & k & -> & -> & L3 & L4 & K2 & F2 & Sb2 & Sc2 & N3 & N4)]; cbn [bind];
      [right; left; split; reflexivity|].
    assert (Sb' : skipn k b2 = skipn k b) by (rewrite Sb2; apply (skipn_le _ _ 1); [exact Sb|lia]).
    assert (Sc' : skipn k c2 = skipn k c) by (rewrite Sc2; apply (skipn_le _ _ 1); [exact Sc|lia]).
    destruct r2 as [r2|].
    + right. right. eexists _, _, b2, c2, k. split; [reflexivity|]. split; [reflexivity|]. split; [congruence|]. split; [congruence|]. repeat (split; [assumption|]).
      intros n ->. rewrite (N4 n eq_refl). lia.
    + specialize (N3 eq_refl). subst k. rewrite (pid_same b2 c2 F2). destruct (get_pid c2) as [p| |]; cbn [bind];
        [|left; split; reflexivity|right; left; split; reflexivity].
      right. right. eexists _, _, b2, c2, 188%nat. split; [reflexivity|]. split; [reflexivity|]. split; [congruence|]. split; [congruence|]. repeat (split; [assumption|]).
      intros n [= <-]. lia.
Qed.

(** ** TsDrain *)
Definition whole_packets {S} (read : S -> list N -> res (S * list N * io)) : Prop :=
  forall s b s' b' n, read s b = Ok (s', b', IoOk n) -> n = 0%nat \/ n = 188%nat.
Lemma hunt_none fuel : forall s b s' b' n, hunt fuel s b = Ok (s', b', Some (IoOk n)) -> n = 0%nat.
Proof.
  induction fuel as [|fuel IH]; intros s b s' b' n H; cbn [hunt] in H; [discriminate|].
  destruct (read_at s b 0 1) as [[[s1 b1] r]| |]; cbn [bind] in H; try discriminate. destruct r as [[|x]|e]; try congruence.
  destruct (is_sync b1) as [[]| |]; cbn [bind] in H; try discriminate. exact (IH _ _ _ _ _ H).
Qed.
Lemma fill_none fuel : forall s b j s' b' n, fill fuel s b j = Ok (s', b', Some (IoOk n)) -> n = 0%nat.
Proof.
  induction fuel as [|fuel IH]; intros s b j s' b' n H; cbn [fill] in H; [discriminate|].
  destruct (j =? 188)%nat; [discriminate|].
  destruct (read_at s b j 188) as [[[s1 b1] r]| |]; cbn [bind] in H; try discriminate. destruct r as [[|x]|e]; try congruence.
  exact (IH _ _ _ _ _ _ H).
Qed.
Lemma ts_read_whole : whole_packets ts_read.
Proof.
  intros s b s' b' n H. unfold ts_read in H. destruct (188 <=? length b)%nat; [|discriminate].
  destruct (hunt (S (length (s_data s))) s b) as [[[s1 b1] r1]| |] eqn:E; cbn [bind] in H; try discriminate.
  destruct r1 as [r1|]; [left; apply (hunt_none _ _ _ _ _ _ (eq_trans E (f_equal Ok (f_equal2 pair eq_refl (f_equal Some (f_equal snd (f_equal (fun x => match x with Ok y => y | _ => (s, b, IoOk 0) end) H))))))) |].
  destruct (fill 189 s1 b1 1) as [[[s2 b2] r2]| |] eqn:E2; cbn [bind] in H; try discriminate.
  destruct r2 as [r2|].
  - injection H as -> -> ->. left. exact (fill_none _ _ _ _ _ _ _ E2).
  - destruct (get_pid b2); cbn [bind] in H; try discriminate. right. congruence.
Qed.

Definition alike_drain {S} (d d' : drain S) : Prop :=
  d_inner d = d_inner d' /\ d_pos d = d_pos d' /\ length (d_buf d) = 188%nat /\ length (d_buf d') = 188%nat /\ (d_pos d < 188)%nat /\ (d_pos d = 0%nat \/ d_buf d = d_buf d').
Definition same_result {S} (R : S -> S -> Prop) (x y : res (S * list N * io)) : Prop :=
  (x = Panic /\ y = Panic) \/ (x = Hang /\ y = Hang) \/
  exists s t b c r, x = Ok (s, b, r) /\ y = Ok (t, c, r) /\ R s t /\ (forall n, r = IoOk n -> firstn n b = firstn n c).

Lemma copy_same {S} (d d' : drain S) b c : d_inner d = d_inner d' -> d_pos d = d_pos d' -> d_buf d = d_buf d' -> length (d_buf d) = 188%nat -> (d_pos d < 188)%nat -> length b = length c ->
  same_result alike_drain (drain_copy d b) (drain_copy d' c).
Proof.
  intros I P B L Q LL. unfold drain_copy, slice_from. rewrite <- I, <- P, <- B, L, <- LL. destruct (Nat.leb_spec (d_pos d) 188); [|lia]. cbn [bind].
  right. right. eexists _, _, _, _, _. split; [reflexivity|]. split; [reflexivity|]. set (t := skipn (d_pos d) (d_buf d)). split.
  - repeat split; cbn [d_inner d_pos d_buf]; try assumption; try (right; reflexivity). apply Nat.mod_upper_bound. lia.
  - intros n [= <-]. assert (X : length (firstn (Nat.min (length t) (length b)) t) = Nat.min (length t) (length b)) by (rewrite firstn_length; lia).
    rewrite <- X at 1 4. rewrite !firstn_app, !firstn_all, !Nat.sub_diag. cbn [firstn]. reflexivity.
Qed.

Lemma drain_same {S} (read : S -> list N -> res (S * list N * io)) d d' b c : careful read -> whole_packets read -> alike_drain d d' -> length b = length c ->
  same_result alike_drain (drain_read read d b) (drain_read read d' c).
Proof.
  intros C W (I & P & L & L' & Q & B) LL. unfold drain_read. rewrite <- P. destruct (Nat.eqb_spec (d_pos d) 0) as [Z|Z].
  - rewrite <- LL. destruct (188 <=? length b)%nat.
    + rewrite <- I. destruct (C (d_inner d) b c LL) as [[-> ->]|[[-> ->]|(s & r & b' & c' & k & -> & -> & _ & _ & F & _ & _ & N)]]; cbn [bind];
        [left; split; reflexivity|right; left; split; reflexivity|].
      right. right. eexists _, _, _, _, _. split; [reflexivity|]. split; [reflexivity|]. split.
      { repeat split; cbn [d_inner d_pos d_buf]; lia. }
      * intros n ->. apply (firstn_le _ _ k); [exact F|exact (N n eq_refl)].
    + rewrite <- I. pose proof (C (d_inner d) (d_buf d) (d_buf d') ltac:(lia)) as G. pose proof (W (d_inner d) (d_buf d)) as V.
      destruct G as [[-> ->]|[[-> ->]|(s & r & b' & c' & k & E & -> & M1 & M2 & F & _ & _ & N)]]; cbn [bind];
        [left; split; reflexivity|right; left; split; reflexivity|]. rewrite E. cbn [bind].
      assert (A : alike_drain (mkDrain s b' (d_pos d)) (mkDrain s c' (d_pos d))).
      { repeat split; cbn [d_inner d_pos d_buf]; try lia. }
      destruct r as [[|n]|e].
      * right. right. eexists _, _, b, c, _. split; [reflexivity|]. split; [reflexivity|]. split; [exact A|]. intros n [= <-]. reflexivity.
      * destruct (V _ _ _ E) as [X|X]; [discriminate|]. specialize (N _ eq_refl).
        assert (BC : b' = c') by (rewrite <- (firstn_all2 (n := k) b'), <- (firstn_all2 (n := k) c') by lia; exact F).
        apply copy_same; cbn [d_inner d_pos d_buf]; try lia; try reflexivity; try exact BC.
      * right. right. eexists _, _, b, c, _. split; [reflexivity|]. split; [reflexivity|]. split; [exact A|]. discriminate.
  - destruct B as [B|B]; [contradiction|]. apply copy_same; assumption.
Qed.

(** ** many reads *)
Lemma gets_same {S} (read : S -> list N -> res (S * list N * io)) (R : S -> S -> Prop) :
  (forall s t b c, R s t -> length b = length c -> same_result R (read s b) (read t c)) ->
  forall bufs bufs' s t, R s t -> map (@length N) bufs = map (@length N) bufs' -> same_for_caller (gets read s bufs) (gets read t bufs') R.
Proof.
  intros H. induction bufs as [|b bufs IH]; intros [|c bufs'] s t A E; try discriminate.
  - right. right. exists [], s, t. repeat (split; [reflexivity|]). exact A.
  - injection E as E1 E. cbn [gets]. destruct (H s t b c A E1) as [[-> ->]|[[-> ->]|(s1 & t1 & b1 & c1 & r & -> & -> & A1 & N)]];
      [left; split; reflexivity|right; left; split; reflexivity|].
    destruct r as [n|e].
    + rewrite <- (N n eq_refl). destruct (IH bufs' s1 t1 A1 E) as [[-> ->]|[[-> ->]|(l & s2 & t2 & -> & -> & A2)]];
        [left; split; reflexivity|right; left; split; reflexivity|]. right. right. eexists _, s2, t2. split; [reflexivity|]. split; [reflexivity|exact A2].
    + destruct (IH bufs' s1 t1 A1 E) as [[-> ->]|[[-> ->]|(l & s2 & t2 & -> & -> & A2)]];
        [left; split; reflexivity|right; left; split; reflexivity|]. right. right. eexists _, s2, t2. split; [reflexivity|]. split; [reflexivity|exact A2].
Qed.
Lemma careful_result {S} (read : S -> list N -> res (S * list N * io)) : careful read ->
  forall s t b c, s = t -> length b = length c -> same_result eq (read s b) (read t c).
Proof.
  intros C s t b c -> L. destruct (C t b c L) as [G|[G|(s & r & b' & c' & k & E1 & E2 & _ & _ & F & _ & _ & N)]]; [left; exact G|right; left; exact G|].
  right. right. exists s, s, b', c', r. split; [exact E1|]. split; [exact E2|]. split; [reflexivity|]. intros n X. apply (firstn_le _ _ k); [exact F|exact (N n X)].
Qed.

(** ** Cbr *)
Definition alike_block (b c : block) : Prop :=
  b_pos b = b_pos c /\ b_cap b = b_cap c /\ b_pcr b = b_pcr c /\ b_delta b = b_delta c /\ length (b_buffer b) = length (b_buffer c) /\ firstn (b_cap b) (b_buffer b) = firstn (b_cap c) (b_buffer c).
Definition alike_cbr {S} (c d : cbr S) : Prop :=
  c_inner c = c_inner d /\ c_parity c = 0%nat /\ c_parity d = 0%nat /\ c_pid c = c_pid d /\ c_last c = c_last d /\
  exists b0 b1 d0 d1, c_blocks c = [b0; b1] /\ c_blocks d = [d0; d1] /\ alike_block b0 d0 /\ alike_block b1 d1.

Lemma pcr_same b c : firstn 188 b = firstn 188 c -> is_pcr b = is_pcr c.
Proof. intros E. unfold is_pcr, is_adaptation, get_adaptation_size. rewrite (get_same b c 188 3 E), (get_same b c 188 4 E), (get_same b c 188 5 E) by lia. reflexivity. Qed.
Lemma get_pcr_same m b c : firstn 188 b = firstn 188 c -> get_pcr m b = get_pcr m c.
Proof.
  intros E. unfold get_pcr. rewrite (get_same b c 188 6 E), (get_same b c 188 7 E), (get_same b c 188 8 E), (get_same b c 188 9 E), (get_same b c 188 10 E), (get_same b c 188 11 E) by lia.
  reflexivity.
Qed.
(** analyze does not touch the blocks, and sees of them the 188 bytes at [cap] *)
Lemma analyze_same {S} m (s : S) b0 b1 d0 d1 pid last : (b_cap b0 <= length (b_buffer b0))%nat -> b_cap b0 = b_cap d0 -> length (b_buffer b0) = length (b_buffer d0) ->
  firstn 188 (skipn (b_cap b0) (b_buffer b0)) = firstn 188 (skipn (b_cap d0) (b_buffer d0)) ->
  let x := analyze m (mkCbr s 0 [b0; b1] pid last) in let y := analyze m (mkCbr s 0 [d0; d1] pid last) in
  (x = Panic /\ y = Panic) \/ (x = Hang /\ y = Hang) \/
  exists pid' last', x = Ok (mkCbr s 0 [b0; b1] pid' last') /\ y = Ok (mkCbr s 0 [d0; d1] pid' last').
Proof.
  intros L C LL F. cbn zeta. unfold analyze. cbn [c_blocks c_parity c_inner c_pid c_last get nth_error bind]. unfold slice_from. rewrite <- C, <- LL in *.
  destruct (Nat.leb_spec (b_cap b0) (length (b_buffer b0))); [|lia]. cbn [bind]. rewrite (pcr_same _ _ F), (pid_same _ _ F), (get_pcr_same m _ _ F).
  set (p := skipn (b_cap b0) (b_buffer d0)). clearbody p. destruct (is_pcr p) as [[]| |]; cbn [bind negb]; [|right; right; eexists _, _; split; reflexivity|left; split; reflexivity|right; left; split; reflexivity].
  destruct (get_pid p) as [q| |]; cbn [bind]; [|left; split; reflexivity|right; left; split; reflexivity].
  destruct (negb (q =? pid) && negb (pid =? PID_NONE)); [right; right; eexists _, _; split; reflexivity|].
  destruct (get_pcr m p) as [v| |]; cbn [bind]; [|left; split; reflexivity|right; left; split; reflexivity].
  destruct (negb (last =? PCR_NONE) && (last =? v)); right; right; eexists _, _; split; reflexivity.
Qed.

Lemma app_same (b c x y : list N) n k : length b = length c -> (n <= length b)%nat -> firstn n b = firstn n c -> firstn k x = firstn k y -> firstn (n + k) (firstn n b ++ x) = firstn (n + k) (firstn n c ++ y).
Proof.
  intros LL L E F. rewrite E. assert (A : length (firstn n c) = n) by (rewrite firstn_length; lia). rewrite !firstn_app, A. f_equal.
  replace (n + k - n)%nat with k by lia. exact F.
Qed.
Lemma skip_app (b x : list N) n : (n <= length b)%nat -> skipn n (firstn n b ++ x) = x.
Proof. intros L. assert (A : length (firstn n b) = n) by (rewrite firstn_length; lia). rewrite <- A at 1. rewrite skipn_app, skipn_all, Nat.sub_diag. reflexivity. Qed.

Lemma push_same {S} (read : S -> list N -> res (S * list N * io)) m c d : careful read -> alike_cbr c d ->
  (push_packet read m c = Panic /\ push_packet read m d = Panic) \/ (push_packet read m c = Hang /\ push_packet read m d = Hang) \/
  exists c' d' r, push_packet read m c = Ok (c', r) /\ push_packet read m d = Ok (d', r) /\ alike_cbr c' d'.
Proof.
  intros C (I & P & P' & Q & T & b0 & b1 & d0 & d1 & B & D & (A1 & A2 & A3 & A4 & A5 & A6) & A7).
  destruct c as [s p0 l0 pid last], d as [s' p1 l1 pid' last']. cbn [c_inner c_parity c_blocks c_pid c_last] in *. subst s' p0 p1 pid' last' l0 l1.
  unfold push_packet. cbn [c_inner c_parity c_blocks c_pid c_last get nth_error bind]. unfold slice_from. rewrite <- A2, <- A5.
  destruct (Nat.leb_spec (b_cap b0) (length (b_buffer b0))) as [L|L]; cbn [bind]; [|left; split; reflexivity].
  destruct (C s (skipn (b_cap b0) (b_buffer b0)) (skipn (b_cap b0) (b_buffer d0))) as [[-> ->]|[[-> ->]|(s1 & r & x & y & k & -> & -> & M1 & M2 & F & _ & _ & N)]];
    [rewrite !skipn_length; lia|left; split; reflexivity|right; left; split; reflexivity|]. cbn [bind].
  rewrite !skipn_length in *. rewrite <- A2 in A6.
  set (nb := mkBlock (firstn (b_cap b0) (b_buffer b0) ++ x) (b_pos b0) (b_cap b0) (b_pcr b0) (b_delta b0)).
  set (nd := mkBlock (firstn (b_cap b0) (b_buffer d0) ++ y) (b_pos d0) (b_cap b0) (b_pcr d0) (b_delta d0)).
  assert (S2 : forall u v w : block, set [u; v] 0 w = Ok [w; v]) by reflexivity. rewrite !S2. cbn [bind].
  assert (Ln : length (b_buffer nb) = length (b_buffer nd)) by (cbn [nb nd b_buffer]; rewrite !app_length, !firstn_length; lia).
  assert (AB : alike_block nb nd).
  { unfold alike_block. cbn [nb nd b_pos b_cap b_pcr b_delta]. repeat (split; [reflexivity || assumption|]). 
    pose proof (app_same (b_buffer b0) (b_buffer d0) x y (b_cap b0) 0 A5 L A6 eq_refl) as G. rewrite Nat.add_0_r in G. exact G. }
  destruct r as [n|e].
  - destruct (Nat.eqb_spec n 188) as [->|Z].
    + specialize (N _ eq_refl). pose proof (firstn_le _ _ _ _ F N) as F'.
      assert (G : firstn 188 (skipn (b_cap nb) (b_buffer nb)) = firstn 188 (skipn (b_cap nd) (b_buffer nd))).
      { cbn [nb nd b_cap b_buffer]. rewrite !skip_app by lia. exact F'. }
      assert (Lc : (b_cap nb <= length (b_buffer nb))%nat) by (cbn [nb b_cap b_buffer]; rewrite app_length, firstn_length; lia).
      destruct (analyze_same m s1 nb b1 nd d1 pid last Lc eq_refl Ln G) as [[-> ->]|[[-> ->]|(pid' & last' & -> & ->)]]; cbn [bind];
        [left; split; reflexivity|right; left; split; reflexivity|].
      cbn [c_inner c_parity c_blocks c_pid c_last get nth_error bind]. rewrite !S2. cbn [bind].
      right. right. eexists _, _, _. split; [reflexivity|]. split; [reflexivity|]. repeat (split; [reflexivity|]).
      eexists _, _, _, _. split; [reflexivity|]. split; [reflexivity|]. split; [|exact A7].
      unfold alike_block. cbn [b_pos b_cap b_pcr b_delta]. repeat (split; [reflexivity || assumption|]).
      exact (app_same (b_buffer b0) (b_buffer d0) x y (b_cap b0) 188 A5 L A6 F').
    + right. right. eexists _, _, _. split; [reflexivity|]. split; [reflexivity|]. repeat (split; [reflexivity|]).
      eexists _, _, _, _. split; [reflexivity|]. split; [reflexivity|]. split; assumption.
  - right. right. eexists _, _, _. split; [reflexivity|]. split; [reflexivity|]. repeat (split; [reflexivity|]).
    eexists _, _, _, _. split; [reflexivity|]. split; [reflexivity|]. split; assumption.
Qed.

Lemma cbr_reads_same {S} (read : S -> list N -> res (S * list N * io)) m : careful read -> forall bufs bufs' c d, alike_cbr c d -> length bufs = length bufs' ->
  (cbr_reads read m c bufs = Panic /\ cbr_reads read m d bufs' = Panic) \/ (cbr_reads read m c bufs = Hang /\ cbr_reads read m d bufs' = Hang) \/
  exists l l' c' d', cbr_reads read m c bufs = Ok (l, c') /\ cbr_reads read m d bufs' = Ok (l', d') /\ map snd l = map snd l' /\ alike_cbr c' d'.
Proof.
  intros C. induction bufs as [|b bufs IH]; intros [|b' bufs'] c d A E; try discriminate.
  - right. right. exists [], [], c, d. repeat (split; [reflexivity|]). exact A.
  - injection E as E. cbn [cbr_reads]. unfold cbr_read. destruct (push_same read m c d C A) as [[-> ->]|[[-> ->]|(c1 & d1 & r & -> & -> & A1)]]; cbn [bind];
      [left; split; reflexivity|right; left; split; reflexivity|].
    destruct (IH bufs' c1 d1 A1 E) as [[-> ->]|[[-> ->]|(l & l' & c2 & d2 & -> & -> & X & A2)]]; cbn [bind];
      [left; split; reflexivity|right; left; split; reflexivity|].
    right. right. eexists _, _, c2, d2. split; [reflexivity|]. split; [reflexivity|]. split; [cbn [map snd]; rewrite X; reflexivity|exact A2].
Qed.
