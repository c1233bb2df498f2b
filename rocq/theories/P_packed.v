(** Proofs: sections packed back to back. *)
From Verif Require Import Prelude Layout Facts Facts2 S_ts S_crc S_utils S_psi M_bytes M_ts M_crc M_utils M_psi M_drive M_recv M_desc S_desc
  M_tables S_tables P_bytes P_crc P_utils P_psi P_mux P_mux2 P_sect P_mux3 P_desc P_desc2 P_desc3 W_psi W_desc P_tab P_tab2 P_tab5 P_tab6 P_tab7 W_tables
  S_system P_sys S_packed.

(** a start packet in sequence, on a state with bytes in the buffer *)
Lemma mux_pointed m p k r rest : consistent p \/ (p_size p = 0%nat /\ bytes (p_buffer p)) -> p_buffer p <> [] -> p_cc p < 16 -> ends_section (p_cc p) k r rest ->
  psi_mux m p (encode k) = (let q := drain p in
    Ok (mkPsi (p_buffer q ++ r ++ rest) (if (length (p_buffer q ++ r ++ rest) <? 3)%nat then 0 else section_length (p_buffer q ++ r ++ rest))%nat (p_pid p) (k_cc k))).
Proof.
  intros HI Hne Hc (Hk & Hpl & Hpu & Hkc & Hpay & Hr & Hl).
  rewrite mux_encode by assumption. rewrite Hpl, Hpu, Hpay. unfold mux_payload. rewrite Nat2N.id.
  destruct (Nat.leb_spec 183 (length r)); [lia|].
  destruct (Nat.eqb_spec (length r) 0) as [H0|H0]; [destruct r; [congruence|discriminate]|].
  rewrite cc_breaks_eq by (left; lia). rewrite Hkc, N.eqb_refl. cbn [negb bind]. cbv zeta.
  destruct (p_buffer p) as [|x y] eqn:Eb; [congruence|]. clear Hne.
  assert (Hbr : bytes (r ++ rest)).
  { destruct Hk as (_ & _ & Hk & _). rewrite Hpay in Hk. apply bytes_cons in Hk. apply Hk. }
  assert (HD : InvB (drain p) \/ p_size (drain p) = 0%nat /\ bytes (p_buffer (drain p))).
  { destruct HI as [HI|[H1 H2]]; [apply drain_ok; exact HI|]. right. unfold drain. rewrite H1. cbn [Nat.eqb negb andb].
    split; [assumption|rewrite Eb; exact H2]. }
  destruct (push_eq (drain p) (r ++ rest) HD Hbr) as [-> _].
  cbn [bind]. unfold pushed, with_cc. cbn [p_buffer p_size p_pid p_cc].
  replace (p_pid (drain p)) with (p_pid p); [reflexivity|]. unfold drain. destruct (_ && _)%bool; reflexivity.
Qed.

(** the section that is on its way is completed *)
Lemma pointed_first m p k s carry r rest : framed s -> s = carry ++ r -> p_buffer p = carry -> consistent p -> carry <> [] -> p_cc p < 16 ->
  ends_section (p_cc p) k r rest -> psi_mux m p (encode k) = Ok (mkPsi (s ++ rest) (length s) (p_pid p) (k_cc k)).
Proof.
  intros F E Ep HI Hne Hc K. pose proof (framed_len s F) as L3. destruct F as [Fb Fl].
  rewrite (mux_pointed m p k r rest (or_introl HI)) by (try assumption; rewrite Ep; assumption). cbv zeta.
  assert (Hd : drain p = p).
  { unfold drain. destruct HI as [_ [[H1 H2]|[H1 H2]]]; [rewrite H1; reflexivity|].
    assert (Hsz : p_size p = length s).
    { rewrite H2, Ep, Fl, E. rewrite Ep in H1. rewrite section_length_app by assumption. reflexivity. }
    destruct (Nat.ltb_spec (p_size p) (length (p_buffer p))) as [Hx|Hx]; [|rewrite andb_false_r; reflexivity].
    rewrite Ep, Hsz, E, app_length in Hx. lia. }
  rewrite Hd, Ep, app_assoc, <- E.
  destruct (Nat.ltb_spec (length (s ++ rest)) 3) as [H|H]; [rewrite app_length in H; lia|].
  rewrite section_length_app by assumption. rewrite <- Fl. reflexivity.
Qed.
(** a complete section gives way to the one behind it *)
Lemma pointed_next m s1 q pid cc k r rest s2 rest2 : framed s1 -> bytes q -> q <> [] -> cc < 16 -> ends_section cc k r rest ->
  framed s2 -> q ++ r ++ rest = s2 ++ rest2 ->
  psi_mux m (mkPsi (s1 ++ q) (length s1) pid cc) (encode k) = Ok (mkPsi (s2 ++ rest2) (length s2) pid (k_cc k)).
Proof.
  intros F1 Hq Hne Hc K F2 E. pose proof (framed_len s1 F1) as L3. pose proof (framed_len s2 F2) as L2.
  assert (HI : consistent (mkPsi (s1 ++ q) (length s1) pid cc)).
  { split; [apply bytes_app; split; [apply F1|assumption]|]. right. cbn [p_buffer p_size]. rewrite app_length. split; [lia|].
    rewrite section_length_app by assumption. apply F1. }
  rewrite (mux_pointed m _ k r rest (or_introl HI)); cbn [p_buffer p_cc]; try assumption; [|destruct s1; [cbn in L3; lia|discriminate]].
  assert (Hd : drain (mkPsi (s1 ++ q) (length s1) pid cc) = mkPsi q 0 pid cc).
  { unfold drain. cbn [p_size p_buffer p_pid p_cc]. rewrite app_length.
    destruct (Nat.eqb_spec (length s1) 0); [lia|]. destruct q as [|z w]; [congruence|].
    destruct (Nat.ltb_spec (length s1) (length s1 + length (z :: w))); [|cbn [length] in *; lia].
    cbn [negb andb]. rewrite skipn_app, skipn_all, Nat.sub_diag. reflexivity. }
  cbv zeta. rewrite Hd. cbn [p_buffer p_pid]. rewrite E.
  destruct (Nat.ltb_spec (length (s2 ++ rest2)) 3) as [H|H]; [rewrite app_length in H; lia|].
  rewrite section_length_app by assumption. destruct F2 as [_ F2]. rewrite <- F2. reflexivity.
Qed.
(** a complete section with nothing behind it stays; what comes is put behind it *)
Lemma pointed_stale m s pid cc k r rest : framed s -> cc < 16 -> ends_section cc k r rest ->
  psi_mux m (mkPsi s (length s) pid cc) (encode k) = Ok (mkPsi (s ++ r ++ rest) (length s) pid (k_cc k)).
Proof.
  intros F Hc K. pose proof (framed_len s F) as L3. pose proof (consistent_got s pid cc F) as HI.
  rewrite (mux_pointed m _ k r rest (or_introl HI)); cbn [p_buffer p_cc]; try assumption; [|destruct s; [cbn in L3; lia|discriminate]].
  unfold drain. cbn [p_size p_buffer p_pid p_cc]. rewrite Nat.ltb_irrefl, andb_false_r. cbn [p_buffer p_pid].
  destruct (Nat.ltb_spec (length (s ++ r ++ rest)) 3) as [H|H]; [rewrite app_length in H; lia|].
  rewrite section_length_app by assumption. destruct F as [_ F]. rewrite <- F. reflexivity.
Qed.

Lemma concat_bytes (ll : list (list N)) : Forall framed ll -> bytes (concat ll).
Proof. induction 1 as [|s ll [H _] _ IH]; [constructor|]. cbn [concat]. apply bytes_app. auto. Qed.
Lemma chain_framed cc carry ks ss left : chain cc carry ks ss left -> Forall framed ss.
Proof. induction 1; [constructor|]. constructor; [assumption|]. apply Forall_app. auto. Qed.
Lemma chain_len cc carry ks ss left : chain cc carry ks ss left -> (length ks <= length ss)%nat.
Proof. induction 1; [constructor|]. cbn [length]. rewrite app_length. lia. Qed.
Lemma ends_bytes cc k r rest : ends_section cc k r rest -> bytes r /\ bytes rest /\ k_cc k < 16.
Proof.
  intros (K & _ & _ & Kc & Kp & _). destruct K as (_ & _ & Kb & _). rewrite Kp in Kb. apply bytes_cons in Kb as [_ Kb]. apply bytes_app in Kb as [K1 K2].
  split; [assumption|]. split; [assumption|]. rewrite Kc. apply N.mod_lt. lia.
Qed.
Lemma chain_bytes cc carry ks ss left : chain cc carry ks ss left -> bytes carry -> bytes left.
Proof. induction 1 as [|? ? ? ? ? ? ? ? ? ? ? ? ? ? K ? IH]; intros B; [assumption|]. apply IH. apply ends_bytes in K as (_ & K & _). apply bytes_app in K. tauto. Qed.

Section Chain.
Context {T : Type} (m : mode) (parse : T -> psi -> res T) (f : list N -> bool) (rd : list N -> T -> Prop) (add : T -> T -> T).
Context (reads : forall t s extra u i cc, framed s -> bytes extra -> f s = true -> rd s u -> parse t (mkPsi (s ++ extra) (length s) i cc) = Ok (add t u)).
Context (pass : forall t s extra i cc, framed s -> bytes extra -> f s = false -> parse t (mkPsi (s ++ extra) (length s) i cc) = Ok t).

(** one section, with [extra] behind it, is looked at *)
Definition look (s : list N) (ts : list T) : Prop := Forall2 rd (filter f [s]) ts.
Lemma look_parse t s extra ts i cc : framed s -> bytes extra -> look s ts -> parse t (mkPsi (s ++ extra) (length s) i cc) = Ok (fold_left add ts t).
Proof.
  intros F B L. unfold look in L. cbn [filter] in L. destruct (f s) eqn:E.
  - inversion L as [|? u ? us L1 L2]; subst. inversion L2; subst. apply reads; assumption.
  - inversion L; subst. apply pass; assumption.
Qed.

Lemma heard_split s ss ts : Forall2 rd (filter f (s :: ss)) ts -> exists t1 t2, ts = t1 ++ t2 /\ look s t1 /\ Forall2 rd (filter f ss) t2.
Proof.
  intros H. unfold look. cbn [filter] in *. destruct (f s).
  - inversion H; subst. eexists [_], _. split; [reflexivity|]. split; [constructor; [eassumption|constructor]|assumption].
  - exists [], ts. split; [reflexivity|]. split; [constructor|assumption].
Qed.

(** behind the first packet: [q] are the sections that are complete but not looked at yet *)
Lemma chain_rest : forall ks cc carry ss left, chain cc carry ks ss left -> forall s q t ts pid, framed s -> Forall framed q -> bytes carry -> cc < 16 ->
  Forall2 rd (filter f (firstn (length ks) (q ++ ss))) ts ->
  exists s' q', receive m parse (mkPsi (s ++ concat q ++ carry) (length s) pid cc) t (map encode ks) =
      Ok (mkPsi (s' ++ concat q' ++ left) (length s') pid (last_cc cc ks), fold_left add ts t) /\
    s' :: q' = skipn (length ks) (s :: q ++ ss).
Proof.
  induction 1 as [cc left|cc carry k ks s0 r whole next ss left Hne F0 E Fw K C IH]; intros s q t ts pid F Fq Hb Hc R.
  - cbn [length firstn] in R. inversion R; subst. exists s, q. cbn [map receive fold_left length skipn]. unfold last_cc. cbn [filter map last].
    rewrite app_nil_r. auto.
  - cbn [length firstn] in R. pose proof (ends_bytes _ _ _ _ K) as (Br & Bn & Hc'). apply bytes_app in Bn as [Bw Bn].
    (* the next section in the queue *)
    assert (X : exists s1 q1, q ++ s0 :: whole = s1 :: q1 /\ framed s1 /\ Forall framed q1).
    { destruct q as [|s1 q]; [exists s0, whole; auto|]. exists s1, (q ++ s0 :: whole). inversion Fq; subst. split; [reflexivity|]. split; [assumption|].
      apply Forall_app. split; [assumption|constructor; assumption]. }
    destruct X as (s1 & q1 & Eq & F1 & Fq1).
    assert (Eall : q ++ (s0 :: whole ++ ss) = s1 :: q1 ++ ss) by (rewrite app_comm_cons, app_assoc, Eq; reflexivity).
    rewrite Eall in R |- *. cbn [firstn] in R. apply heard_split in R as (t1 & t2 & -> & R1 & R2).
    cbn [map receive].
    rewrite (pointed_next m s (concat q ++ carry) pid cc k r (concat whole ++ next) s1 (concat q1 ++ next)); try assumption.
    + assert (Bx : bytes (concat q1 ++ next)) by (apply bytes_app; split; [apply concat_bytes; assumption|assumption]).
      cbn [bind]. rewrite (look_parse t s1 (concat q1 ++ next) t1) by assumption.
      cbn [bind]. destruct (IH s1 q1 (fold_left add t1 t) t2 pid F1 Fq1 Bn Hc' R2) as (s' & q' & -> & E').
      exists s', q'. rewrite fold_left_app. cbn [length skipn]. split; [|exact E']. unfold last_cc. destruct K as (_ & Kp & _). cbn [filter]. rewrite Kp. cbn [map].
      rewrite last_cons. reflexivity.
    + apply bytes_app. split; [apply concat_bytes; assumption|assumption].
    + intros X. apply app_eq_nil in X as [_ X]. congruence.
    + rewrite (app_assoc s1), <- (concat_cons s1 q1) at 1. rewrite <- Eq. rewrite concat_app. cbn [concat]. rewrite E. rewrite <- !app_assoc. reflexivity.
Qed.
Lemma chain_seen ks cc carry ss left p t ts : chain cc carry ks ss left -> ks <> [] -> p_buffer p = carry -> p_cc p = cc -> cc < 16 -> consistent p ->
  Forall2 rd (filter f (firstn (length ks) ss)) ts ->
  exists s' q', receive m parse p t (map encode ks) = Ok (mkPsi (s' ++ concat q' ++ left) (length s') (p_pid p) (last_cc cc ks), fold_left add ts t) /\
    s' :: q' = skipn (length ks - 1) ss.
Proof.
  intros C Hk Ep Ec Hc HI R. destruct C as [|cc carry k ks s0 r whole next ss left Hne F0 E Fw K C]; [congruence|]. clear Hk.
  pose proof (ends_bytes _ _ _ _ K) as (Br & Bn & Hc'). apply bytes_app in Bn as [Bw Bn].
  cbn [length firstn] in R. apply heard_split in R as (t1 & t2 & -> & R1 & R2). cbn [map receive]. rewrite <- Ec in K.
  rewrite (pointed_first m p k s0 carry r (concat whole ++ next)) by (try assumption; rewrite Ec; assumption). cbn [bind].
  assert (Bx : bytes (concat whole ++ next)) by (apply bytes_app; split; assumption).
  rewrite (look_parse t s0 (concat whole ++ next) t1) by assumption. cbn [bind].
  destruct (chain_rest ks (k_cc k) next ss left C s0 whole (fold_left add t1 t) t2 (p_pid p) F0 Fw Bn Hc' R2) as (s' & q' & -> & E').
  exists s', q'. rewrite fold_left_app. cbn [length]. rewrite Nat.sub_succ, Nat.sub_0_r. split; [|exact E'].
  unfold last_cc. destruct K as (_ & Kp & _). cbn [filter]. rewrite Kp. cbn [map]. rewrite last_cons. reflexivity.
Qed.
End Chain.

Lemma holds_short p s d r : framed s -> s = d ++ r -> holds p d -> p_buffer p = d.
Proof.
  intros F E [H1 H2]. destruct (Nat.lt_ge_cases (length d) 3) as [L|L]; [apply H2; assumption|].
  destruct (H1 L) as [_ ->]. rewrite firstn_all2; [reflexivity|]. destruct F as [_ F]. rewrite E, section_length_app, app_length in F by assumption. lia.
Qed.
Lemma carried_firstn n ks : exists r, carried ks = carried (firstn n ks) ++ r.
Proof. exists (carried (skipn n ks)). rewrite <- carried_app, firstn_skipn. reflexivity. Qed.
(** the packets that start a section *)
Lemma receive_begins {T} m (parse : T -> psi -> res T) p t l cc carry s r : framed s -> s = carry ++ r -> r <> [] -> begins l cc carry -> waits parse s ->
  exists q, receive m parse p t (map encode l) = Ok (q, t) /\ p_buffer q = carry /\ consistent q /\ p_cc q = cc /\ p_cc q < 16 /\ p_pid q = p_pid p.
Proof.
  intros F Es Hr (k & ks & c & -> & Hk & Hpl & Hpu & Hpay & Hc & H3 & -> & ->) W.
  assert (X : forall n, exists p', mux_all m p (map encode (k :: firstn n ks)) = Ok p' /\ holds p' (c ++ carried (firstn n ks)) /\
     p_cc p' = last_cc (k_cc k) (firstn n ks) /\ p_pid p' = p_pid p).
  { intros n. destruct (mux_legal m p [] k (firstn n ks) [] c) as (p' & E & Hh & Hc' & Hp & _); try assumption.
    - constructor.
    - cbn. lia.
    - left. reflexivity.
    - apply continues_firstn. assumption.
    - destruct (Nat.le_gt_cases (length ks) n) as [L|L]; [rewrite firstn_all2 by assumption; assumption|].
      rewrite <- (firstn_skipn n ks) in H3. rewrite filter_app in H3. destruct (filter k_haspl (firstn n ks)); [exact I|exact H3].
    - exists p'. auto. }
  assert (Y : forall n, (n <= length ks)%nat ->
     exists q, mux_all m p (map encode (k :: firstn n ks)) = Ok q /\ receive m parse p t (map encode (k :: firstn n ks)) = Ok (q, t)).
  { induction n as [|n IH]; intros Ln.
    - destruct (X 0%nat) as (q & E & Hh & _). exists q. split; [assumption|]. cbn [firstn map mux_all receive] in *.
      apply bind_inv in E as (q1 & -> & E). injection E as ->. cbn [bind].
      cbn [carried filter map concat] in Hh. rewrite app_nil_r in Hh.
      rewrite (W t q c (carried ks ++ r)); [reflexivity|rewrite Es, <- app_assoc; reflexivity| |exact Hh].
      intros Q. apply app_eq_nil in Q. tauto.
    - destruct (IH ltac:(lia)) as (q0 & E0 & R0).
      destruct (X (S n)) as (q & E & Hh & _). exists q. split; [assumption|].
      rewrite (snoc_firstn ks n k) in E |- * by lia. rewrite app_comm_cons, map_app in E |- *. rewrite receive_app, R0.
      rewrite mux_all_app, E0 in E. cbn [bind mux_all map receive] in *.
      apply bind_inv in E as (q1 & -> & E). injection E as ->. cbn [bind].
      destruct (carried_firstn (S n) ks) as [r' Er]. rewrite Er in Es.
      rewrite (W t q (c ++ carried (firstn (S n) ks)) (r' ++ r)); [reflexivity|rewrite Es, <- !app_assoc; reflexivity| |exact Hh].
      intros Q. apply app_eq_nil in Q. tauto. }
  destruct (X (length ks)) as (q & E & Hh & Hcc & Hp). destruct (Y (length ks) ltac:(lia)) as (q' & E' & R).
  rewrite firstn_all in *. assert (q' = q) by congruence. subst q'. exists q. split; [assumption|].
  split; [eapply holds_short; eassumption|]. split; [|split; [assumption|split; [|assumption]]].
  - eapply holds_consistent; [|exact Hh]. destruct F as [Fb _]. rewrite Es in Fb. apply bytes_app in Fb. tauto.
  - rewrite Hcc. clear - Hk Hc. assert (G : forall ks cc, cc < 16 -> continues cc ks -> last_cc cc ks < 16).
    { induction ks0 as [|x ks0 IH]; intros cc H K; [exact H|]. unfold last_cc in *. cbn [filter]. cbn [continues] in K. destruct K as [K1 K2].
      destruct (k_haspl x); [|apply IH; assumption]. destruct K2 as (_ & _ & K2 & K3). cbn [map]. rewrite last_cons. apply IH; [apply K1|assumption]. }
    apply G; [apply Hk|assumption].
Qed.

(** sections of a table with CRC *)
Lemma heard_pass {T} (parse : T -> psi -> res T) fi ids min : (forall b, b < 256 -> fi b = true <-> ids b) ->
  (forall t p, consistent p -> ~ accepted ids min p -> parse t p = Ok t) ->
  forall t s extra i cc, framed s -> bytes extra -> heard1 fi min s = false -> parse t (mkPsi (s ++ extra) (length s) i cc) = Ok t.
Proof.
  intros Hf P t s extra i cc F B E. pose proof (framed_len s F) as L. apply P.
  - split; [apply bytes_app; split; [apply F|assumption]|]. right. cbn [p_buffer p_size]. rewrite app_length. split; [lia|].
    rewrite section_length_app by assumption. apply F.
  - intros (A1 & A2 & A3). cbn [p_buffer p_size] in *. rewrite firstn_app, firstn_all, Nat.sub_diag, firstn_O, app_nil_r in A3.
    unfold heard1 in E. rewrite <- not_true_iff_false in E. apply E. rewrite !andb_true_iff, Nat.leb_le, N.eqb_eq, Hf by apply (field_lt s 0 8).
    split; [split|]; [lia| |assumption]. rewrite field_prefix in A2 by lia. assumption.
Qed.
Lemma heard_has fi ids min s extra i cc : (8 <= min)%nat -> (forall b, b < 256 -> fi b = true <-> ids b) -> framed s -> bytes extra -> heard1 fi min s = true ->
  has (mkPsi (s ++ extra) (length s) i cc) s /\ ids (field s 0 8) /\ (min <= length s)%nat.
Proof.
  intros Hm Hf F B H. unfold heard1 in H. rewrite !andb_true_iff, Nat.leb_le, N.eqb_eq, Hf in H by apply (field_lt s 0 8). destruct H as [[H1 H2] H3].
  split; [|split; assumption]. destruct F as [F1 F2]. split; [repeat split; try assumption; lia|]. split; [reflexivity|]. exists extra. auto.
Qed.

(** what is needed of a table *)
Definition readable {T} (parse : T -> psi -> res T) (f : list N -> bool) (rd : list N -> T -> Prop) (add : T -> T -> T) : Prop :=
  (forall t s extra u i cc, framed s -> bytes extra -> f s = true -> rd s u -> parse t (mkPsi (s ++ extra) (length s) i cc) = Ok (add t u)) /\
  (forall t s extra i cc, framed s -> bytes extra -> f s = false -> parse t (mkPsi (s ++ extra) (length s) i cc) = Ok t) /\
  (forall s, framed s -> waits parse s).

Ltac table ids min m pass id_ids sec :=
  split; [|split; [apply (heard_pass _ _ ids); [exact id_ids|exact (pass m)]|intros s F; exact (waits_pass _ ids min s ltac:(lia) (pass m) F)]];
  intros t s extra u i cc F B E R; destruct (heard_has _ ids min s extra i cc ltac:(lia) id_ids F B E) as (H1 & H2 & H3); sec.
Lemma pat_readable m : readable (pat_parse m) (heard1 id_pat 12) pat_reads pat_add.
Proof. table pat_ids 12%nat m pat_pass id_pat_ids ltac:(rewrite R; exact (pat_parse_section m t _ s H1 H2 H3)). Qed.
Lemma pmt_readable m : readable (pmt_parse m) (heard1 id_pmt 16) pmt_seen pmt_add.
Proof. table pmt_ids 16%nat m pmt_pass id_pmt_ids ltac:(exact (pmt_parse_section m t _ s u H1 H2 H3 R)). Qed.
Lemma nit_readable m : readable (nit_parse m) (heard1 id_nit 16) nit_reads nit_add.
Proof. table nit_ids 16%nat m nit_pass id_nit_ids ltac:(exact (nit_parse_section m t _ s u H1 H2 H3 R)). Qed.
Lemma sdt_readable m : readable (sdt_parse m) (heard1 id_sdt 15) sdt_reads sdt_add.
Proof. table sdt_ids 15%nat m sdt_pass id_sdt_ids ltac:(exact (sdt_parse_section m t _ s u H1 H2 H3 R)). Qed.
Lemma eit_readable m : readable (eit_parse m) (heard1 id_eit 18) eit_reads eit_add.
Proof. table eit_ids 18%nat m eit_pass id_eit_ids ltac:(exact (eit_parse_section m t _ s u H1 H2 H3 R)). Qed.
Lemma tot_readable m : readable (tot_parse m) (heard1 id_tot 14) tot_reads tot_add.
Proof. table tot_ids 14%nat m tot_pass id_tot_ids ltac:(exact (tot_parse_section m t _ s u H1 H2 H3 R)). Qed.

Lemma filter_firstn_app (f : list N -> bool) {T} (rd : list N -> T -> Prop) a b ts : Forall2 rd (filter f (a ++ b)) ts ->
  exists t1 t2, ts = t1 ++ t2 /\ Forall2 rd (filter f a) t1 /\ Forall2 rd (filter f b) t2.
Proof. rewrite filter_app. intros H. apply Forall2_app_inv_l in H as (t1 & t2 & H1 & H2 & ->). eauto. Qed.

Lemma begins_chain {T} m (parse : T -> psi -> res T) f rd add p old l cc carry ks ss left ts : readable parse f rd add ->
  begins l cc carry -> chain cc carry ks ss left -> ks <> [] -> Forall2 rd (filter f (firstn (length ks) ss)) ts ->
  exists q, receive m parse p old (map encode (l ++ ks)) = Ok (q, fold_left add ts old) /\
    p_buffer q = concat (skipn (length ks - 1) ss) ++ left /\ p_size q = length (hd [] (skipn (length ks - 1) ss)).
Proof.
  intros (R1 & R2 & R3) B C Hk R. destruct C as [|cc carry k ks s0 r whole next ss left Hne F0 E Fw K C]; [congruence|].
  assert (Hr : r <> []) by apply K.
  destruct (receive_begins m parse p old l cc carry s0 r F0 E Hr B (R3 s0 F0)) as (q & Eq & Q1 & Q2 & Q3 & Q4 & Q5).
  rewrite map_app, receive_app, Eq. cbn [bind]. rewrite Q3 in Q4.
  destruct (chain_seen m parse f rd add R1 R2 (k :: ks) cc carry (s0 :: whole ++ ss) left q old ts) as (s' & q' & E1 & E2); try assumption.
  { apply (chain_cons cc carry k ks s0 r whole next ss left); assumption. }
  rewrite E1. rewrite <- E2. eexists. split; [reflexivity|]. cbn [p_buffer p_size hd concat]. rewrite app_assoc. auto.
Qed.
Lemma receive_runs {T} m (parse : T -> psi -> res T) f rd add : readable parse f rd add -> forall l sent seen, runs l sent seen ->
  forall p old ts, Forall2 rd (filter f seen) ts -> exists q, receive m parse p old (map encode l) = Ok (q, fold_left add ts old).
Proof.
  intros X l sent seen H. induction H as [|l s rest sent seen C F H IH|l cc carry ks ss left rest sent seen B C Hk H IH]; intros p old ts R.
  - inversion R; subst. exists p. reflexivity.
  - apply (heard_split f rd) in R as (t1 & t2 & -> & R1 & R2). rewrite map_app, receive_app. pose proof X as (X1 & X2 & X3).
    destruct (receive_carried m parse p old l s F C (or_intror (X3 s F))) as (cc & Hcc & E). cbv zeta in E. rewrite E. clear E.
    pose proof (look_parse parse f rd add X1 X2 old s [] t1 (p_pid p) cc F ltac:(constructor) R1) as E. rewrite app_nil_r in E. rewrite E. cbn [bind].
    destruct (IH (mkPsi s (length s) (p_pid p) cc) (fold_left add t1 old) t2 R2) as [q Eq]. exists q. rewrite Eq, fold_left_app. reflexivity.
  - apply filter_firstn_app in R as (t1 & t2 & -> & R1 & R2). rewrite app_assoc, map_app, receive_app.
    destruct (begins_chain m parse f rd add p old l cc carry ks ss left t1 X B C Hk R1) as (q & E & _). rewrite E. cbn [bind].
    destruct (IH q (fold_left add t1 old) t2 R2) as [q' Eq]. exists q'. rewrite Eq, fold_left_app. reflexivity.
Qed.
(** nothing is lost if no packet ends two sections *)
Lemma chain_one cc carry ks ss left : chain cc carry ks ss left -> length ss = length ks -> firstn (length ks) ss = ss.
Proof. intros _ E. rewrite <- E. apply firstn_all. Qed.

(** a start packet that holds a whole section and more *)
Lemma start_whole m p k s rest : framed s -> packet_ok k -> k_haspl k = true -> k_pusi k = true -> k_payload k = 0 :: s ++ rest ->
  psi_mux m p (encode k) = Ok (mkPsi s (length s) (p_pid p) (k_cc k)).
Proof.
  intros F Hk Hpl Hpu Hpay.
  destruct (mux_legal m p [] k [] [] (s ++ rest)) as (q & E & Hh & Hc & Hp & _); try assumption.
  - constructor.
  - cbn. lia.
  - left. reflexivity.
  - exact I.
  - exact I.
  - cbn [app map mux_all] in E. apply bind_inv in E as (q1 & E & E1). injection E1 as ->. rewrite E. cbn [carried filter map concat] in Hh.
    rewrite app_nil_r in Hh. destruct (holds_framed q s rest F Hh) as [B1 B2]. destruct q. cbn in *. subst. reflexivity.
Qed.
Lemma twice {T} m (parse : T -> psi -> res T) f rd add p old k0 k1 s rest r rest1 u : readable parse f rd add -> framed s -> f s = true -> rd s u ->
  packet_ok k0 -> k_haspl k0 = true -> k_pusi k0 = true -> k_payload k0 = 0 :: s ++ rest -> ends_section (k_cc k0) k1 r rest1 ->
  receive m parse p old (map encode [k0; k1]) = Ok (mkPsi (s ++ r ++ rest1) (length s) (p_pid p) (k_cc k1), add (add old u) u).
Proof.
  intros (X1 & _) F Ef Ru K1 K2 K3 K4 K. cbn [map receive]. rewrite (start_whole m p k0 s rest F K1 K2 K3 K4). cbn [bind].
  pose proof (X1 old s [] u (p_pid p) (k_cc k0) F ltac:(constructor) Ef Ru) as E. rewrite app_nil_r in E. rewrite E. cbn [bind].
  pose proof (ends_bytes _ _ _ _ K) as (B1 & B2 & _).
  rewrite (pointed_stale m s (p_pid p) (k_cc k0) k1 r rest1 F) by (try assumption; apply K1). cbn [bind].
  rewrite (X1 (add old u) s (r ++ rest1) u (p_pid p) (k_cc k1) F ltac:(apply bytes_app; auto) Ef Ru). reflexivity.
Qed.
Lemma out_of_step m s r rest1 pid cc k r2 rest2 : framed s -> bytes (r ++ rest1) -> r <> [] -> cc < 16 -> ends_section cc k r2 rest2 ->
  (3 <= length (r ++ rest1 ++ r2 ++ rest2))%nat ->
  psi_mux m (mkPsi (s ++ r ++ rest1) (length s) pid cc) (encode k) =
    Ok (mkPsi (r ++ rest1 ++ r2 ++ rest2) (section_length (r ++ rest1 ++ r2 ++ rest2)) pid (k_cc k)).
Proof.
  intros F Hq Hne Hc K L. pose proof (framed_len s F) as L3.
  assert (HI : consistent (mkPsi (s ++ r ++ rest1) (length s) pid cc)).
  { split; [apply bytes_app; split; [apply F|assumption]|]. right. cbn [p_buffer p_size]. rewrite app_length. split; [lia|].
    rewrite section_length_app by assumption. apply F. }
  rewrite (mux_pointed m _ k r2 rest2 (or_introl HI)); cbn [p_buffer p_cc]; try assumption; [|destruct s; [cbn in L3; lia|discriminate]].
  assert (Hd : drain (mkPsi (s ++ r ++ rest1) (length s) pid cc) = mkPsi (r ++ rest1) 0 pid cc).
  { unfold drain. cbn [p_size p_buffer p_pid p_cc]. rewrite app_length.
    destruct (Nat.eqb_spec (length s) 0); [lia|].
    destruct (Nat.ltb_spec (length s) (length s + length (r ++ rest1))) as [H|H]; [|destruct r; [congruence|cbn [length app] in H; lia]].
    cbn [negb andb]. rewrite skipn_app, skipn_all, Nat.sub_diag. reflexivity. }
  cbv zeta. rewrite Hd. cbn [p_buffer p_pid]. rewrite <- app_assoc.
  destruct (Nat.ltb_spec (length (r ++ rest1 ++ r2 ++ rest2)) 3) as [H|H]; [lia|reflexivity].
Qed.
Lemma receive_mux m l : forall p, (q <- mux_all m p l ;; Ok (q, tt)) = receive m (fun t _ => Ok t) p tt l.
Proof. induction l as [|x l IH]; intros p; [reflexivity|]. cbn [mux_all receive]. destruct (psi_mux m p x); cbn [bind]; [apply IH|reflexivity|reflexivity]. Qed.
Lemma chain_state m p l cc carry ks ss left : begins l cc carry -> chain cc carry ks ss left -> ks <> [] ->
  exists q, mux_all m p (map encode (l ++ ks)) = Ok q /\ p_buffer q = concat (skipn (length ks - 1) ss) ++ left /\
    p_size q = length (hd [] (skipn (length ks - 1) ss)).
Proof.
  intros B C Hk. destruct (begins_chain m (fun (t : unit) _ => Ok t) (fun _ => false) (fun _ _ => False) (fun t _ => t) p tt l cc carry ks ss left [])
    as (q & E & H); [|assumption|assumption|assumption| |].
  - split; [discriminate|]. split; [reflexivity|]. intros s _ t p' d r _ _ _. reflexivity.
  - assert (G : forall x : list (list N), filter (fun _ => false) x = []) by (induction x; auto). rewrite G. constructor.
  - exists q. split; [|exact H]. pose proof (receive_mux m (map encode (l ++ ks)) p) as R. rewrite E in R.
    destruct (mux_all m p (map encode (l ++ ks))); cbn [bind] in R; congruence.
Qed.
