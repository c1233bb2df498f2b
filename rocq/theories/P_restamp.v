(** Proofs: packets with another clock. *)
From Verif Require Import Prelude Layout Facts Facts2 M_bytes M_ts M_crc M_psi M_drive M_recv M_measure S_ts S_crc S_psi P_bytes P_ts P_crc W_ts P_psi P_mux
  S_measure P_measure S_remux P_remux M_restamp S_restamp.

Definition packet (pk : list N) : Prop := length pk = 188%nat /\ bytes pk.
Lemma period : PERIOD = 2576980377600. Proof. reflexivity. Qed.
Lemma none : PCR_NONE = PERIOD. Proof. reflexivity. Qed.
Lemma max : PCR_MAX = 2576980377599. Proof. reflexivity. Qed.

(** what is written, [v] below the period *)
Definition stamp (v : N) (pk : list N) : list N := firstn 6 pk ++ pcr_bytes (v / 300) 63 (v mod 300) ++ skipn 12 pk.
Lemma stamp_packet v pk : packet pk -> packet (stamp v pk).
Proof.
  intros [L B]. unfold stamp. split; [rewrite !app_length, firstn_length, pcr_bytes_length, skipn_length; lia|].
  apply bytes_app. split; [apply bytes_firstn; exact B|]. apply bytes_app. split; [apply layout_bytes|apply bytes_skipn; exact B].
Qed.
Lemma stamp_front v pk n : (n <= 6)%nat -> (6 <= length pk)%nat -> firstn n (stamp v pk) = firstn n pk.
Proof.
  intros H L. unfold stamp. rewrite firstn_app, firstn_length, firstn_firstn. replace (Nat.min n 6) with n by lia. replace (n - Nat.min 6 (length pk))%nat with 0%nat by lia.
  rewrite firstn_O, app_nil_r. reflexivity.
Qed.
Lemma stamp_skip v pk n : (12 <= n)%nat -> (12 <= length pk)%nat -> skipn n (stamp v pk) = skipn n pk.
Proof.
  intros H L. unfold stamp. rewrite app_assoc, skipn_app, app_length, firstn_length, pcr_bytes_length.
  rewrite skipn_all2 by (rewrite app_length, firstn_length, pcr_bytes_length; lia). cbn [app]. rewrite skipn_skipn. f_equal. lia.
Qed.
Lemma stamp_field v pk off w : (off + w <= 48)%nat -> (6 <= length pk)%nat -> field (stamp v pk) off w = field pk off w.
Proof.
  intros H L. unfold stamp. assert (L6 : length (firstn 6 pk) = 6%nat) by (rewrite firstn_length; lia).
  rewrite field_prefix by lia. rewrite <- (firstn_skipn 6 pk) at 2. rewrite field_prefix by lia. reflexivity.
Qed.
Lemma stamp_has v pk : packet pk -> has_pcr (stamp v pk) = has_pcr pk.
Proof. intros [L B]. unfold has_pcr, flag. rewrite !stamp_field by lia. reflexivity. Qed.
Lemma stamp_value v pk : packet pk -> v < PERIOD -> pcr_of (stamp v pk) = v.
Proof.
  intros [L B] H. rewrite period in H. unfold pcr_of, stamp. assert (L6 : length (firstn 6 pk) = 6%nat) by (rewrite firstn_length; lia).
  change 87%nat with (8 * 6 + 39)%nat. rewrite (field_app_n 6) by exact L6. rewrite pcr_bytes_ext.
  change 48%nat with (8 * 6 + 0)%nat. rewrite (field_app_n 6) by exact L6. rewrite pcr_bytes_base.
  change (2 ^ 33) with 8589934592. change (2 ^ 9) with 512. rewrite (N.mod_small (v / 300)) by dlia. rewrite (N.mod_small (v mod 300)) by dlia. dlia.
Qed.
Lemma stamp_stamp v w pk : packet pk -> stamp v (stamp w pk) = stamp v pk.
Proof. intros [L B]. unfold stamp at 1. rewrite stamp_front by lia. rewrite stamp_skip by lia. reflexivity. Qed.
Lemma mod_below a : a mod PERIOD < PERIOD.
Proof. apply N.mod_lt. rewrite period. discriminate. Qed.
Lemma later_eq k pk : later k pk = if has_pcr pk then stamp ((pcr_of pk + k) mod PERIOD) pk else pk.
Proof. reflexivity. Qed.
Lemma later_packet k pk : packet pk -> packet (later k pk).
Proof. intros P. rewrite later_eq. destruct (has_pcr pk); [exact (stamp_packet _ pk P)|exact P]. Qed.
Lemma later_has k pk : packet pk -> has_pcr (later k pk) = has_pcr pk.
Proof. intros P. rewrite later_eq. destruct (has_pcr pk) eqn:E; [rewrite stamp_has by exact P; exact E|exact E]. Qed.
Lemma later_value k pk : packet pk -> has_pcr pk = true -> pcr_of (later k pk) = (pcr_of pk + k) mod PERIOD.
Proof. intros P H. rewrite later_eq, H. apply stamp_value; [exact P|apply mod_below]. Qed.
Lemma later_field k pk off w : packet pk -> (off + w <= 48)%nat -> field (later k pk) off w = field pk off w.
Proof. intros [L B] H. rewrite later_eq. destruct (has_pcr pk); [apply stamp_field; lia|reflexivity]. Qed.
Lemma later_skip k pk n : packet pk -> (12 <= n)%nat -> skipn n (later k pk) = skipn n pk.
Proof. intros [L B] H. rewrite later_eq. destruct (has_pcr pk); [apply stamp_skip; lia|reflexivity]. Qed.

Lemma pcr_of_lt pk : pcr_of pk < 2 ^ 42.
Proof. unfold pcr_of. pose proof (field_lt pk 48 33) as A. pose proof (field_lt pk 87 9) as B. change (2 ^ N.of_nat 33) with 8589934592 in A. change (2 ^ N.of_nat 9) with 512 in B. change (2 ^ 42) with 4398046511104. lia. Qed.
Lemma restamp_spec m k l : Forall packet l -> k < 2 ^ 63 -> restamp m k l = Ok (map (later k) l).
Proof.
  intros F K. induction F as [|pk l [L B] F IH]; [reflexivity|]. cbn [restamp map]. rewrite is_pcr_spec by (assumption || lia). cbn [bind].
  rewrite later_eq. change (flag pk 26 && (7 <=? field pk 32 8) && flag pk 43) with (has_pcr pk). destruct (has_pcr pk).
  - rewrite get_pcr_spec by (assumption || lia). change (field pk 48 33 * 300 + field pk 87 9) with (pcr_of pk). cbn [bind]. pose proof (pcr_of_lt pk) as A.
    change (2 ^ 63) with 9223372036854775808 in K. change (2 ^ 42) with 4398046511104 in A. unfold addw, U64. destruct (N.ltb_spec (pcr_of pk + k) 18446744073709551616); [|lia]. cbn [bind].
    rewrite set_pcr_spec by lia. cbn [bind]. rewrite IH. reflexivity.
  - cbn [bind]. rewrite IH. reflexivity.
Qed.

(** ** the payload *)
Lemma later_sound k pk : sound pk -> sound (later k pk).
Proof.
  intros (L & B & A). destruct (later_packet k pk (conj L B)) as [L2 B2]. split; [exact L2|]. split; [exact B2|]. unfold flag. rewrite (later_field k pk 26 1), (later_field k pk 32 8) by (first [exact (conj L B)|lia]). exact A.
Qed.
Lemma later_at k pk : packet pk -> payload_at (later k pk) = payload_at pk.
Proof. intros P. unfold payload_at, flag. rewrite !later_field by (exact P || lia). reflexivity. Qed.
Lemma has_far pk : sound pk -> has_pcr pk = true -> 12 <= payload_at pk.
Proof.
  intros (_ & _ & A). unfold has_pcr, payload_at. destruct (flag pk 26); [|discriminate]. specialize (A eq_refl). cbn [andb].
  destruct (N.leb_spec 7 (field pk 32 8)); [|discriminate]. intros _. rewrite N.mod_small by lia. lia.
Qed.
Lemma later_payload k pk : sound pk -> skipn (N.to_nat (payload_at pk)) (later k pk) = skipn (N.to_nat (payload_at pk)) pk.
Proof.
  intros S. pose proof S as (L & B & _). destruct (has_pcr pk) eqn:E; [|rewrite later_eq, E; reflexivity]. pose proof (has_far pk S E). apply later_skip; [exact (conj L B)|lia].
Qed.
Lemma mux_later m p k pk : sound pk -> psi_mux m p (later k pk) = psi_mux m p pk.
Proof.
  intros S. pose proof S as (L & B & _). rewrite (mux_sound m p _ (later_sound k pk S)), (mux_sound m p pk S), (later_at k pk (conj L B)), (later_payload k pk S).
  unfold flag. rewrite !(later_field k pk) by (first [exact (conj L B)|lia]). reflexivity.
Qed.
Lemma receive_later {T} m (parse : T -> psi -> res T) k l : Forall sound l -> forall p t, receive m parse p t (map (later k) l) = receive m parse p t l.
Proof.
  intros F. induction F as [|pk l S F IH]; intros p t; [reflexivity|]. cbn [map receive]. rewrite (mux_later m p k pk S).
  destruct (psi_mux m p pk) as [p'| |]; [|reflexivity|reflexivity]. cbn [bind]. destruct (parse t p') as [t'| |]; [|reflexivity|reflexivity]. cbn [bind]. apply IH.
Qed.

(** ** twice, and back *)
Lemma later_later j k pk : packet pk -> later j (later k pk) = later (k + j) pk.
Proof.
  intros P. rewrite (later_eq j), (later_has k pk P). destruct (has_pcr pk) eqn:E.
  - rewrite (later_value k pk P E), !later_eq, E, (stamp_stamp _ _ pk P). f_equal. rewrite N.add_mod_idemp_l by (rewrite period; discriminate). f_equal. lia.
  - rewrite !later_eq, E. reflexivity.
Qed.
Lemma later_turns j k pk : j mod PERIOD = k mod PERIOD -> later j pk = later k pk.
Proof.
  intros H. rewrite !later_eq. destruct (has_pcr pk); [|reflexivity]. f_equal.
  rewrite <- (N.add_mod_idemp_r _ j), <- (N.add_mod_idemp_r _ k), H by (rewrite period; discriminate). reflexivity.
Qed.

Lemma bits_of_bits l : bits_of (length l) (N_of_bits l) = l.
Proof.
  assert (G : forall w v, (forall i, (i < w)%nat -> nth i (rev l) false = N.testbit v (N.of_nat i)) -> (w <= length l)%nat -> bits_of w v = skipn (length l - w) l).
  { induction w as [|w IH]; intros v H L; [rewrite Nat.sub_0_r, skipn_all; reflexivity|]. cbn [bits_of]. rewrite IH; [|intros i Hi; apply H; lia|lia].
    rewrite <- (H w) by lia. rewrite rev_nth by lia. replace (length l - S w)%nat with (length l - w - 1)%nat by lia.
    set (n := (length l - w - 1)%nat). assert (n < length l)%nat by lia. replace (length l - w)%nat with (S n) by lia. clearbody n. clear - H0.
    revert n H0. induction l as [|x l IH]; intros n Hn; [cbn [length] in Hn; lia|]. destruct n as [|n]; [reflexivity|]. cbn [nth skipn]. apply IH. cbn [length] in Hn. lia. }
  rewrite (G (length l)); [rewrite Nat.sub_diag; reflexivity| |lia].
  intros i Hi. rewrite testbit_N_of_bits, Nat2N.id. reflexivity.
Qed.
Lemma bits_of_field l off w : (off + w <= 8 * length l)%nat -> bits_of w (field l off w) = firstn w (skipn off (unpack l)).
Proof.
  intros H. unfold field. rewrite <- (bits_of_bits (firstn w (skipn off (unpack l)))) at 2. f_equal. rewrite firstn_length, skipn_length, unpack_length. lia.
Qed.
Lemma pcr_complete p : (12 <= length p)%nat -> bytes p -> p = firstn 6 p ++ pcr_bytes (field p 48 33) (field p 81 6) (field p 87 9) ++ skipn 12 p.
Proof.
  intros Hl Hb. rewrite <- (firstn_skipn 6 p) at 1. f_equal. rewrite <- (firstn_skipn 6 (skipn 6 p)) at 1. f_equal; [|rewrite skipn_skipn; reflexivity].
  set (q := firstn 6 (skipn 6 p)).
  assert (E : p = firstn 6 p ++ q ++ skipn 12 p) by (unfold q; change (skipn 12 p) with (skipn (6 + 6) p); rewrite <- skipn_skipn, !firstn_skipn; reflexivity).
  assert (Hq : length q = 6%nat) by (unfold q; rewrite firstn_length, skipn_length; lia). assert (Bq : bytes q) by (apply bytes_firstn, bytes_skipn; exact Hb).
  assert (G : forall off w, (off + w <= 48)%nat -> field p (8 * 6 + off) w = field q off w).
  { intros off w H. rewrite E at 1. rewrite (field_app_n 6) by (rewrite firstn_length; lia). apply field_prefix. lia. }
  assert (G0 : field p 48 33 = field q 0 33) by (apply (G 0 33)%nat; lia). assert (G1 : field p 81 6 = field q 33 6) by (apply (G 33 6)%nat; lia).
  assert (G2 : field p 87 9 = field q 39 9) by (apply (G 39 9)%nat; lia). rewrite G0, G1, G2. clearbody q. clear - Hq Bq.
  rewrite <- (pack_unpack q Bq) at 1. unfold pcr_bytes, layout, field_bits. cbn [flat_map fst snd]. rewrite !bits_of_field by lia. f_equal.
  assert (U : length (unpack q) = 48%nat) by (rewrite unpack_length; lia). rewrite app_nil_r.
  rewrite <- (firstn_skipn 33 (unpack q)) at 1. f_equal. rewrite <- (firstn_skipn 6 (skipn 33 (unpack q))) at 1. f_equal.
  rewrite skipn_skipn. symmetry. apply firstn_all2. rewrite skipn_length. lia.
Qed.
Lemma pcr_bytes_res b r e l : field (pcr_bytes b r e ++ l) 33 6 = r mod 2 ^ 6.
Proof. exact (field_layout [(33%nat, b)] 6 r [(9%nat, e)] l eq_refl). Qed.
Lemma stamp_regular v pk : packet pk -> regular (stamp v pk).
Proof.
  intros [L B]. unfold regular, stamp. assert (L6 : length (firstn 6 pk) = 6%nat) by (rewrite firstn_length; lia).
  change 87%nat with (8 * 6 + 39)%nat. rewrite (field_app_n 6) by exact L6. rewrite pcr_bytes_ext.
  change 81%nat with (8 * 6 + 33)%nat. rewrite (field_app_n 6) by exact L6. rewrite pcr_bytes_res.
  split; [reflexivity|]. change (2 ^ 9) with 512. rewrite N.mod_small by dlia. dlia.
Qed.
Lemma later_zero pk : packet pk -> (later 0 pk = pk <-> (has_pcr pk = true -> regular pk)).
Proof.
  intros P. rewrite later_eq. destruct (has_pcr pk); [|split; [discriminate|reflexivity]]. rewrite N.add_0_r. split.
  - intros E _. rewrite <- E. apply stamp_regular. exact P.
  - intros R. specialize (R eq_refl). destruct R as [R1 R2]. destruct P as [L B]. unfold stamp. rewrite (pcr_complete pk) at 5 by (assumption || lia). rewrite R1.
    pose proof (field_lt pk 48 33) as A. change (2 ^ N.of_nat 33) with 8589934592 in A. unfold pcr_of. rewrite period. rewrite N.mod_small by lia.
    do 3 f_equal; dlia.
Qed.

(** ** the clock *)
Lemma observe_spec m pid l : Forall packet l -> forall n, observe m pid n l = Ok (clock pid n l).
Proof.
  intros F. induction F as [|pk l [L B] F IH]; intros n; [reflexivity|]. cbn [observe clock]. rewrite get_pid_spec by (assumption || lia). cbn [bind].
  destruct (field pk 11 13 =? pid); cbn [negb andb]; [|apply IH]. rewrite is_pcr_spec by (assumption || lia). cbn [bind].
  change (flag pk 26 && (7 <=? field pk 32 8) && flag pk 43) with (has_pcr pk). destruct (has_pcr pk); [|apply IH].
  rewrite get_pcr_spec by (assumption || lia). cbn [bind]. rewrite IH. reflexivity.
Qed.
Lemma clock_later k pid l : Forall packet l -> forall n, clock pid n (map (later k) l) = shifted k (clock pid n l).
Proof.
  intros F. induction F as [|pk l P F IH]; intros n; [reflexivity|]. cbn [map clock]. rewrite (later_field k pk) by (exact P || lia). rewrite (later_has k pk P).
  destruct (field pk 11 13 =? pid); cbn [andb]; [|apply IH]. destruct (has_pcr pk) eqn:E; [|apply IH].
  rewrite (later_value k pk P E), IH. reflexivity.
Qed.

(** ** distances *)
Definition late (a b : N) : N := if b <? a then 1 else 0.
Lemma delta_late m a b : a < PERIOD -> b < PERIOD -> exists d, pcr_delta m a b = Ok d /\ (Z.of_N (d + late a b) = (Z.of_N b - Z.of_N a) mod Z.of_N PERIOD)%Z.
Proof.
  rewrite period. intros A B. unfold pcr_delta, late. rewrite max. destruct (N.leb_spec a b) as [H|H].
  - exists (b - a). split; [reflexivity|]. destruct (N.ltb_spec b a); [lia|]. rewrite Z.mod_small by lia. lia.
  - unfold addw, subw, U64. destruct (N.ltb_spec (b + 2576980377599) 18446744073709551616); [|lia]. cbn [bind].
    destruct (N.leb_spec a (b + 2576980377599)); [|lia]. eexists. split; [reflexivity|]. destruct (N.ltb_spec b a); [|lia].
    replace (Z.of_N b - Z.of_N a)%Z with ((Z.of_N b - Z.of_N a + 2576980377600) + (-1) * Z.of_N 2576980377600)%Z by lia. rewrite Z.mod_add by lia. rewrite Z.mod_small by lia. lia.
Qed.
Lemma distance k a b : ((Z.of_N ((b + k) mod PERIOD) - Z.of_N ((a + k) mod PERIOD)) mod Z.of_N PERIOD = (Z.of_N b - Z.of_N a) mod Z.of_N PERIOD)%Z.
Proof.
  rewrite !N2Z.inj_mod. rewrite <- Zminus_mod. f_equal. lia.
Qed.
Lemma delta_shift m k a b : a < PERIOD -> b < PERIOD -> exists d d', pcr_delta m a b = Ok d /\ pcr_delta m ((a + k) mod PERIOD) ((b + k) mod PERIOD) = Ok d' /\
  d' + late ((a + k) mod PERIOD) ((b + k) mod PERIOD) = d + late a b.
Proof.
  intros A B. destruct (delta_late m a b A B) as (d & E & V). destruct (delta_late m _ _ (mod_below (a + k)) (mod_below (b + k))) as (d' & E' & V').
  exists d, d'. split; [exact E|]. split; [exact E'|]. rewrite distance in V'. rewrite <- V in V'. lia.
Qed.

(** ** the measurement *)
Lemma jitter_shift m d pcr stc : pcr < PERIOD -> pcr + d < PERIOD -> stc + d < U64 -> pcr_jitter_ns m (pcr + d) (stc + d) = pcr_jitter_ns m pcr stc.
Proof.
  rewrite period. unfold U64. intros A B C. unfold pcr_jitter_ns. rewrite max.
  assert (E : (if pcr + d <? stc + d then x <- addw U64 m (pcr + d) 2576980377599 ;; subw U64 m x (stc + d) else Ok (pcr + d - (stc + d))) =
              (if pcr <? stc then x <- addw U64 m pcr 2576980377599 ;; subw U64 m x stc else Ok (pcr - stc))).
  { destruct (N.ltb_spec (pcr + d) (stc + d)), (N.ltb_spec pcr stc); try lia.
    - unfold addw, subw, U64. destruct (N.ltb_spec (pcr + d + 2576980377599) 18446744073709551616); [|lia]. destruct (N.ltb_spec (pcr + 2576980377599) 18446744073709551616); [|lia]. cbn [bind].
      destruct (N.leb_spec (stc + d) (pcr + d + 2576980377599)), (N.leb_spec stc (pcr + 2576980377599)); try lia; [f_equal; lia|]. destruct m; [reflexivity|f_equal; lia].
    - f_equal. lia. }
  rewrite E. reflexivity.
Qed.
Lemma step_shift m d a b nb c nc : a < PERIOD -> b < PERIOD -> c < PERIOD -> a + d < PERIOD -> b + d < PERIOD -> c + d < PERIOD -> nc < 2 ^ 22 ->
  step m (a + d) (b + d) nb (c + d) nc = step m a b nb c nc.
Proof.
  intros A B C A' B' C' NC. unfold step.
  assert (E : pcr_delta m (a + d) (b + d) = pcr_delta m a b).
  { rewrite period in *. unfold pcr_delta. rewrite max. destruct (N.leb_spec (a + d) (b + d)), (N.leb_spec a b); try lia; [f_equal; lia|].
    unfold addw, subw, U64. destruct (N.ltb_spec (b + d + 2576980377599) 18446744073709551616); [|lia]. destruct (N.ltb_spec (b + 2576980377599) 18446744073709551616); [|lia]. cbn [bind].
    destruct (N.leb_spec (a + d) (b + d + 2576980377599)), (N.leb_spec a (b + 2576980377599)); try lia. f_equal. lia. }
  rewrite E. destruct (delta_late m a b A B) as (x & X & V). rewrite X. cbn [bind].
  assert (x < 2576980377600). { assert (P : (0 < Z.of_N PERIOD)%Z) by reflexivity. pose proof (Z.mod_pos_bound (Z.of_N b - Z.of_N a) _ P). rewrite <- V, period in *. lia. }
  change (2 ^ 22) with 4194304 in NC. unfold pcr_to_stc. unfold mulw, U64. destruct (N.ltb_spec (x * nc) 18446744073709551616) as [M|M]; [|nia]. cbn [bind].
  unfold divw. destruct (N.eqb_spec nb 0); [reflexivity|]. cbn [bind]. set (y := x * nc / nb).
  assert (Y : y <= x * nc) by (apply N.div_le_upper_bound; [assumption|nia]). assert (Y2 : x * nc <= 2576980377600 * 4194304) by nia. clearbody y.
  rewrite period in *. unfold addw. destruct (N.ltb_spec (y + (b + d)) 18446744073709551616); [|lia]. destruct (N.ltb_spec (y + b) 18446744073709551616); [|lia]. cbn [bind].
  rewrite N.add_assoc. apply jitter_shift; rewrite ?period; unfold U64; lia.
Qed.
Lemma measure_up m d l : forall a b nb, a < PERIOD -> b < PERIOD -> a + d < PERIOD -> b + d < PERIOD ->
  (forall x, In x l -> fst x < PERIOD /\ fst x + d < PERIOD /\ snd x < 2 ^ 22) ->
  measure m (a + d) (b + d) nb (map (fun x => (fst x + d, snd x)) l) = measure m a b nb l.
Proof.
  induction l as [|[c nc] l IH]; intros a b nb A B A' B' F; [reflexivity|]. destruct (F (c, nc) (or_introl eq_refl)) as (C & C' & NC). cbn [fst snd] in C, C', NC.
  cbn [map fst snd]. rewrite !measure_cons. rewrite (step_shift m d a b nb c nc) by assumption. destruct (step m a b nb c nc); [|reflexivity|reflexivity]. cbn [bind].
  rewrite IH; [reflexivity|assumption..|]. intros x Hx. exact (F x (or_intror Hx)).
Qed.
Lemma measure_shifted m k a b nb l : (forall x, In x ((a, 0) :: (b, 0) :: l) -> fst x < PERIOD /\ turns (fst x + k) = turns (a + k) /\ snd x < 2 ^ 22) ->
  measure m ((a + k) mod PERIOD) ((b + k) mod PERIOD) nb (shifted k l) = measure m a b nb l.
Proof.
  intros F. set (t := turns (a + k)) in *. set (j := k mod PERIOD). set (q := k / PERIOD).
  assert (K : k = PERIOD * q + j) by (apply N.div_mod; rewrite period; discriminate). assert (J : j < PERIOD) by apply mod_below. clearbody q j.
  assert (M : forall v, turns (v + k) = t -> (v + k) mod PERIOD + PERIOD * t = v + k).
  { intros v E. unfold turns in E. rewrite <- E. rewrite N.add_comm. symmetry. apply N.div_mod. rewrite period. discriminate. }
  assert (A : a < PERIOD) by exact (proj1 (F (a, 0) (or_introl eq_refl))). pose proof (M a eq_refl) as MA. pose proof (mod_below (a + k)) as LA.
  destruct (F (b, 0) (or_intror (or_introl eq_refl))) as (B & TB & _). cbn [fst] in B, TB. pose proof (M b TB) as MB. pose proof (mod_below (b + k)) as LB.
  assert (F' : forall x, In x l -> fst x < PERIOD /\ (fst x + k) mod PERIOD + PERIOD * t = fst x + k /\ (fst x + k) mod PERIOD < PERIOD /\ snd x < 2 ^ 22).
  { intros x H. destruct (F x (or_intror (or_intror H))) as (X & T & S). exact (conj X (conj (M _ T) (conj (mod_below _) S))). }
  clear F M. clearbody t. rewrite period in *.
  assert (T : t = q \/ t = q + 1) by nia. destruct T as [T|T].
  - replace ((a + k) mod 2576980377600) with (a + j) by nia. replace ((b + k) mod 2576980377600) with (b + j) by nia.
    assert (E : shifted k l = map (fun x => (fst x + j, snd x)) l).
    { unfold shifted. apply map_ext_in. intros x H. rewrite period. destruct (F' x H) as (X1 & X2 & X3 & X4). f_equal. nia. }
    rewrite E. apply measure_up; rewrite ?period; try nia. intros x H. destruct (F' x H) as (X1 & X2 & X3 & X4). nia.
  - set (d := 2576980377600 - j). symmetry. 
    rewrite <- (measure_up m d (shifted k l)); rewrite ?period; try nia.
    + replace ((a + k) mod 2576980377600 + d) with a by nia. replace ((b + k) mod 2576980377600 + d) with b by nia. f_equal.
      unfold shifted. rewrite map_map. rewrite <- (map_id l) at 1. apply map_ext_in. intros [x n] H. rewrite period. cbn [fst snd]. destruct (F' (x, n) H) as (X1 & X2 & X3 & X4). cbn [fst snd] in *. f_equal. nia.
    + intros y H. unfold shifted in H. apply in_map_iff in H. destruct H as (x & <- & H). cbn [fst snd]. rewrite period. destruct (F' x H) as (X1 & X2 & X3 & X4). nia.
Qed.
Lemma restamped_measure m pid k l a na b nb r : Forall packet l -> k < 2 ^ 63 -> observe m pid 0 l = Ok ((a, na) :: (b, nb) :: r) ->
  (forall x, In x ((a, na) :: (b, nb) :: r) -> fst x < PERIOD /\ turns (fst x + k) = turns (a + k) /\ snd x < 2 ^ 22) ->
  exists l' a' b' r', restamp m k l = Ok l' /\ observe m pid 0 l' = Ok ((a', na) :: (b', nb) :: r') /\ measure m a' b' nb r' = measure m a b nb r.
Proof.
  intros F K O V. rewrite (observe_spec m pid l F) in O. injection O as O. exists (map (later k) l), ((a + k) mod PERIOD), ((b + k) mod PERIOD), (shifted k r).
  split; [exact (restamp_spec m k l F K)|]. assert (F' : Forall packet (map (later k) l)) by (apply Forall_map; revert F; apply Forall_impl; intros; apply later_packet; assumption).
  split; [rewrite (observe_spec m pid _ F'), (clock_later k pid l F), O; reflexivity|].
  apply measure_shifted. intros x [<-|[<-|H]].
  - destruct (V _ (or_introl eq_refl)) as (X & Y & _). split; [exact X|]. split; [exact Y|reflexivity].
  - destruct (V _ (or_intror (or_introl eq_refl))) as (X & Y & _). split; [exact X|]. split; [exact Y|reflexivity].
  - exact (V x (or_intror (or_intror H))).
Qed.
Lemma layout_mod b b' r e e' : b mod 2 ^ 33 = b' mod 2 ^ 33 -> e = e' -> pcr_bytes b r e = pcr_bytes b' r e'.
Proof.
  intros H <-. unfold pcr_bytes, layout, field_bits. cbn [flat_map fst snd]. f_equal. f_equal.
  rewrite <- (bits_of_bits (bits_of 33 b)), <- (bits_of_bits (bits_of 33 b')), !N_of_bits_bits_of, !bits_of_length.
  change (2 ^ N.of_nat 33) with (2 ^ 33). rewrite H. reflexivity.
Qed.
Lemma set_modulo p v : set_pcr p v = set_pcr p (v mod PERIOD).
Proof.
  destruct (le_lt_dec 12 (length p)) as [L|L]; [|rewrite !set_pcr_panic by exact L; reflexivity]. rewrite !set_pcr_spec by exact L. f_equal. f_equal. f_equal.
  apply layout_mod.
  - rewrite period. change (2 ^ 33) with 8589934592. set (q := v / 2576980377600). assert (E : v = 2576980377600 * q + v mod 2576980377600) by (apply N.div_mod; discriminate).
    set (w := v mod 2576980377600) in *. clearbody q w. subst v. replace (2576980377600 * q + w) with (w + 8589934592 * q * 300) by lia. rewrite N.div_add by discriminate.
    rewrite (N.mul_comm 8589934592 q), N.mod_add by discriminate. reflexivity.
  - rewrite period. set (q := v / 2576980377600). assert (E : v = 2576980377600 * q + v mod 2576980377600) by (apply N.div_mod; discriminate).
    set (w := v mod 2576980377600) in *. clearbody q w. subst v. replace (2576980377600 * q + w) with (w + 8589934592 * q * 300) by lia. apply N.mod_add. discriminate.
Qed.
Lemma packet_later m k pk : length pk = 188%nat -> bytes pk -> is_pcr pk = Ok true ->
  exists v, get_pcr m pk = Ok v /\ is_pcr (later k pk) = Ok true /\ get_pcr m (later k pk) = Ok ((v + k) mod PERIOD) /\
  firstn 6 (later k pk) = firstn 6 pk /\ skipn 12 (later k pk) = skipn 12 pk /\ length (later k pk) = 188%nat.
Proof.
  intros L B H. rewrite is_pcr_spec in H by (assumption || lia). injection H as H. fold (has_pcr pk) in H. pose proof (conj L B : packet pk) as P.
  exists (pcr_of pk). rewrite get_pcr_spec by (assumption || lia). split; [reflexivity|]. destruct (later_packet k pk P) as [L' B'].
  rewrite is_pcr_spec, get_pcr_spec by (assumption || lia). fold (has_pcr (later k pk)). rewrite (later_has k pk P), H. split; [reflexivity|].
  fold (pcr_of (later k pk)). rewrite (later_value k pk P H). split; [reflexivity|]. split; [|split; [apply later_skip; [exact P|lia]|exact L']].
  rewrite later_eq, H. apply stamp_front; lia.
Qed.
Lemma back j k pk : length pk = 188%nat -> bytes pk -> (k + j) mod PERIOD = 0 -> (later j (later k pk) = pk <-> (has_pcr pk = true -> regular pk)).
Proof. intros L B E. rewrite (later_later j k pk (conj L B)), (later_turns (k + j) 0) by (rewrite E; reflexivity). apply later_zero. exact (conj L B). Qed.
Lemma clocks m pid k l : Forall packet l -> observe m pid 0 l = Ok (clock pid 0 l) /\ observe m pid 0 (map (later k) l) = Ok (shifted k (clock pid 0 l)).
Proof.
  intros F. split; [apply observe_spec; exact F|]. rewrite observe_spec, clock_later by (first [exact F|apply Forall_map; revert F; apply Forall_impl; intros; apply later_packet; assumption]). reflexivity.
Qed.
