(** Proofs: packets that are sent twice. *)
From Verif Require Import Prelude Layout Facts Facts2 S_ts S_crc S_utils S_psi M_bytes M_ts M_crc M_utils M_psi M_drive M_recv M_desc S_desc
  M_tables S_tables P_bytes P_crc P_utils P_psi P_mux P_mux2 P_sect P_mux3 P_desc P_desc2 P_desc3 W_psi W_desc P_tab P_tab2 P_tab5 P_tab6 P_tab7 W_tables
  M_reader S_reader P_reader M_system S_system P_sys P_sys2 S_packed P_packed S_loss P_loss S_join P_join S_double W_ts.

Definition once (a : list packet) : marked := map (fun k => (k, false)) a.
Lemma split_double (l : marked) : l = once (sent_packets l) \/ exists a k b, l = once a ++ (k, true) :: b.
Proof.
  induction l as [|[k []] l IH]; [left; reflexivity|right; exists [], k, l; reflexivity|]. destruct IH as [IH|(a & k' & b & ->)]; [left|right].
  - cbn [sent_packets map fst once]. f_equal. exact IH.
  - exists (k :: a), k', b. reflexivity.
Qed.
Lemma sent_once a : sent_packets (once a) = a.
Proof. unfold sent_packets, once. rewrite map_map. apply map_id. Qed.
Lemma copies_app a b : copies (a ++ b) = copies a ++ copies b.
Proof. unfold copies. rewrite map_app, concat_app. reflexivity. Qed.
Lemma copies_once a : copies (once a) = a.
Proof. induction a as [|k a IH]; [reflexivity|]. change (copies (once (k :: a))) with (k :: copies (once a)). f_equal. exact IH. Qed.
Lemma cuts_once a : cuts (once a) = [a].
Proof. induction a as [|k a IH]; [reflexivity|]. cbn [once map cuts]. change (map _ a) with (once a). rewrite IH. reflexivity. Qed.
Lemma cuts_double a k b : cuts (once a ++ (k, true) :: b) = (a ++ [k]) :: cuts b.
Proof. induction a as [|x a IH]; [reflexivity|]. cbn [once map app cuts]. change (map _ a) with (once a). rewrite IH. reflexivity. Qed.

Section Double.
Context {T : Type} (m : mode) (parse : T -> psi -> res T) (f : list N -> bool) (rd : list N -> T -> Prop) (add : T -> T -> T).
Context (X : readable parse f rd add).

Definition conts (l : list packet) : Prop := Forall (fun k => packet_ok k /\ k_pusi k = false /\ (3 <= length (k_payload k))%nat) l.

Lemma taken_list (s : list N) l : forall ts p d t, bytes d -> holds p d -> p_cc p < 16 -> counted (p_cc p) l -> conts l ->
  s = firstn (section_length (d ++ concat (map k_payload l))) (d ++ concat (map k_payload l)) ->
  Forall2 rd (filter f (repeat s (complete_in (section_length (d ++ concat (map k_payload l))) (length d) l))) ts ->
  exists q, receive m parse p t (map encode l) = Ok (q, fold_left add ts t) /\ p_cc q < 16 /\ p_cc q = last (map k_cc l) (p_cc p).
Proof.
  induction l as [|k l IH]; intros ts p d t Bd Hh Hc C O E R; [inversion R; exists p; auto|].
  destruct C as (C1 & C2 & C3). inversion O as [|? ? (O1 & O2 & O3) O']; subst x l0. cbn [map receive]. rewrite last_cons, mux_encode by exact O1. rewrite C1, O2, C2.
  assert (Bk : bytes (k_payload k)) by apply O1.
  assert (L3 : (3 <= length (d ++ k_payload k))%nat) by (rewrite app_length; lia).
  destruct (mux_cont m p d (k_payload k) Bd Bk Hh Hc) as (p1 & -> & Hh1 & Hc1 & Hp1); [intros Z; rewrite Z in O3; cbn in O3; lia|exact L3|].
  cbn [bind]. cbn [map concat] in E, R |- *. rewrite app_assoc in E, R. set (d1 := d ++ k_payload k) in *.
  assert (B1 : bytes d1) by (subst d1; apply bytes_app; auto).
  assert (SL : section_length (d1 ++ concat (map k_payload l)) = section_length d1) by (apply section_length_app; exact L3).
  assert (Hc1' : p_cc p1 < 16) by (rewrite Hc1; apply N.mod_lt; discriminate).
  cbn [complete_in] in R. rewrite <- (app_length d (k_payload k)) in R. fold d1 in R. rewrite SL in R.
  assert (C4 : counted (p_cc p1) l) by (rewrite Hc1, <- C2; exact C3).
  rewrite <- Hc1.
  destruct (Nat.leb_spec (section_length d1) (length d1)) as [L|L].
  - cbn [Nat.add repeat] in R. apply (filter_firstn_app f rd [s] _) in R as (t1 & t2 & -> & R1 & R2).
    rewrite (parse_whole parse f rd add X t p1 d1 t1 B1 Hh1 L).
    + cbn [bind]. destruct (IH t2 p1 d1 (fold_left add t1 t) B1 Hh1 Hc1' C4 O' E) as (q & Eq & Q); [rewrite SL; exact R2|].
      exists q. rewrite Eq, fold_left_app. split; [reflexivity|exact Q].
    + rewrite E, SL in R1. replace (firstn (section_length d1) d1) with (firstn (section_length d1) (d1 ++ concat (map k_payload l))); [exact R1|].
      rewrite firstn_app. replace (section_length d1 - length d1)%nat with 0%nat by lia. rewrite firstn_O, app_nil_r. reflexivity.
  - rewrite (parse_waiting parse f rd add X t p1 d1 B1 Hh1 L3 L). cbn [bind]. destruct (IH ts p1 d1 t B1 Hh1 Hc1' C4 O' E) as (q & Eq & Q); [rewrite SL; exact R|].
    exists q. rewrite Eq. split; [reflexivity|exact Q].
Qed.
Definition blank (p : psi) : Prop := p_buffer p = [] /\ p_size p = 0%nat /\ p_cc p < 16.
Lemma taken_run_for g ts p t : blank p -> counted (p_cc p) g -> conts g -> Forall2 rd (filter f (taken_for g)) ts ->
  exists q, receive m parse p t (map encode g) = Ok (q, fold_left add ts t) /\ p_cc q < 16 /\ p_cc q = last (map k_cc g) (p_cc p).
Proof.
  intros (E1 & E2 & E3) C O R. apply (taken_list (phantom g) g ts p []); try assumption; try reflexivity; [constructor|].
  split; [cbn; lia|]. intros _. split; assumption.
Qed.
(** the second copy of a packet *)
Lemma second_copy k p t : packet_ok k -> k_haspl k = true -> k_pusi k = false -> p_cc p < 16 -> p_cc p = k_cc k ->
  receive m parse p t [encode k] = Ok (psi_clear p, t).
Proof.
  intros O H1 H2 L E. cbn [receive]. rewrite (mux_break m p k O H1 H2 L).
  - cbn [bind]. rewrite (parse_cleared parse f rd add X t p [0; 0; 0] framed_min). reflexivity.
  - rewrite <- E. clear - L. dlia.
Qed.
Lemma blank_clear p : p_cc p < 16 -> blank (psi_clear p).
Proof. intros H. split; [reflexivity|]. split; [reflexivity|exact H]. Qed.
Lemma segments n : forall r p t ts, (length r <= n)%nat -> blank p -> counted (p_cc p) (sent_packets r) -> conts (sent_packets r) ->
  Forall2 rd (filter f (concat (map taken_for (cuts r)))) ts -> exists q, receive m parse p t (map encode (copies r)) = Ok (q, fold_left add ts t).
Proof.
  induction n as [|n IH]; intros r p t ts L Bp C O R.
  - destruct r; [|cbn in L; lia]. inversion R. exists p. reflexivity.
  - destruct (split_double r) as [E|(a & k & b & ->)].
    + rewrite E in R |- *. rewrite cuts_once in R. rewrite copies_once. cbn [map concat] in R. rewrite app_nil_r in R.
      destruct (taken_run_for (sent_packets r) ts p t Bp C O R) as (q & Eq & _). exists q. exact Eq.
    + rewrite cuts_double in R. cbn [map concat] in R. apply (filter_firstn_app f rd _ _) in R as (t1 & t2 & -> & R1 & R2).
      rewrite sent_app, sent_once in C, O. cbn [sent_packets map fst] in C, O. fold (sent_packets b) in *.
      change (a ++ k :: sent_packets b) with (a ++ [k] ++ sent_packets b) in C, O. rewrite app_assoc in C, O.
      apply counted_app in C as [C1 C2]. apply Forall_app in O as [O1 O2].
      destruct (taken_run_for (a ++ [k]) t1 p t Bp C1 O1 R1) as (q & Eq & Q1 & Q2).
      rewrite copies_app, copies_once. change (copies ((k, true) :: b)) with ([k] ++ [k] ++ copies b). rewrite app_assoc, map_app, receive_app, Eq. cbn [bind].
      rewrite map_app, receive_app. cbn [map]. rewrite map_app in Q2, C2. cbn [map] in Q2, C2. rewrite last_app_cons in Q2, C2. cbn [last] in Q2, C2.
      apply counted_app in C1 as [_ (C1 & _)]. apply Forall_app in O1 as [_ O1]. inversion O1 as [|? ? (K1 & K2 & _) _]; subst.
      rewrite (second_copy k q _ K1 C1 K2 Q1 Q2). cbn [bind]. rewrite fold_left_app. apply (IH b).
      * rewrite app_length in L. cbn [length] in L. lia.
      * apply blank_clear. exact Q1.
      * cbn [psi_clear p_cc]. rewrite Q2. exact C2.
      * exact O2.
      * exact R2.
Qed.

(** a first copy of the start of a section of more than one packet *)
Lemma start_copy k ks s p t : carries (k :: ks) s -> framed s -> ks <> [] -> exists q, receive m parse p t [encode k] = Ok (q, t).
Proof.
  intros Ca F Ne. destruct (exists_last Ne) as (l & x & E). rewrite E in Ca. clear Ne E ks. destruct X as (_ & _ & W).
  pose proof Ca as (k1 & ks & c & st & El & Hk & Hpl & Hpu & Hpay & Hc & H3 & Hall & Hinc). injection El as <- El. subst ks.
  specialize (Hinc 0%nat). cbn [firstn carried filter map concat] in Hinc. rewrite app_nil_r in Hinc. specialize (Hinc ltac:(rewrite app_length; cbn [length]; lia)).
  assert (Es : s = c ++ skipn (length c) s).
  { transitivity (firstn (length c) s ++ skipn (length c) s); [symmetry; apply firstn_skipn|]. f_equal.
    transitivity (firstn (length c) (s ++ st)); [rewrite firstn_app; replace (length c - length s)%nat with 0%nat by lia; rewrite firstn_O, app_nil_r; reflexivity|].
    rewrite <- Hall. rewrite firstn_app, Nat.sub_diag, firstn_all, firstn_O, app_nil_r. reflexivity. }
  destruct (receive_begins m parse p t [k] (k_cc k) c s (skipn (length c) s) F Es) as (q & E & _).
  - apply skipn_ne. exact Hinc.
  - exists k, [], c. split; [reflexivity|]. do 4 (split; [assumption|]). split; [exact I|]. split; [exact I|]. split; [reflexivity|]. cbn [carried filter map concat]. rewrite app_nil_r. reflexivity.
  - exact (W s F).
  - exists q. exact E.
Qed.
(** all packets of a section, once *)
Lemma whole_section k ks s cc p t ts : carries (k :: ks) s -> framed s -> counted cc (k :: ks) -> Forall2 rd (filter f [s]) ts ->
  exists q, receive m parse p t (map encode (k :: ks)) = Ok (q, fold_left add ts t) /\ p_cc q < 16 /\ p_cc q = last (map k_cc ks) (k_cc k).
Proof.
  intros Ca F (_ & _ & C3) R. pose proof X as (X1 & X2 & X3). pose proof Ca as (k1 & ks1 & c & st & El & Hk & Hpl & Hpu & Hpay & Hc & H3 & Hall & Hinc). injection El as <- <-.
  destruct (receive_carried m parse p t (k :: ks) s F Ca (or_intror (X3 s F))) as (cc' & Hcc' & E).
  cbv zeta in E. pose proof (look_parse parse f rd add X1 X2 t s [] ts (p_pid p) cc' F ltac:(constructor) R) as E'. rewrite app_nil_r in E'. rewrite E' in E.
  cbn [bind] in E. eexists. split; [exact E|]. apply receive_mux in E. split; [exact Hcc'|]. exact (whole_cc m p k ks _ C3 Hc Hk Hpl Hpu c Hpay H3 E).
Qed.
(** the first packets of a section *)
Lemma first_packets k a b s cc p t : carries (k :: a ++ b) s -> framed s -> counted cc (k :: a ++ b) -> b <> [] ->
  exists q, receive m parse p t (map encode (k :: a)) = Ok (q, t) /\ p_cc q < 16 /\ p_cc q = last (map k_cc a) (k_cc k).
Proof.
  intros Ca F (_ & _ & C3) Nb. pose proof X as (X1 & X2 & X3). pose proof Ca as (k1 & ks1 & c & st & El & Hk & Hpl & Hpu & Hpay & Hc & H3 & Hall & Hinc). injection El as <- <-.
  apply counted_app in C3 as [C3 _]. set (carry := c ++ carried a).
  assert (La : (length carry < length s)%nat).
  { specialize (Hinc (length a)). rewrite firstn_app, firstn_all, Nat.sub_diag, firstn_O, app_nil_r in Hinc. apply Hinc. rewrite app_length.
    destruct b; [congruence|]. cbn [length]. lia. }
  assert (Es : s = carry ++ skipn (length carry) s).
  { transitivity (firstn (length carry) s ++ skipn (length carry) s); [symmetry; apply firstn_skipn|]. f_equal.
    transitivity (firstn (length carry) (s ++ st)); [rewrite firstn_app; replace (length carry - length s)%nat with 0%nat by lia; rewrite firstn_O, app_nil_r; reflexivity|].
    rewrite <- Hall, carried_app, app_assoc. fold carry. rewrite firstn_app, Nat.sub_diag, firstn_all, firstn_O, app_nil_r. reflexivity. }
  assert (Ha : continues (k_cc k) a).
  { apply (continues_firstn (length a)) in Hc. rewrite firstn_app, firstn_all, Nat.sub_diag, firstn_O, app_nil_r in Hc. exact Hc. }
  destruct (receive_begins m parse p t (k :: a) (last_cc (k_cc k) a) carry s (skipn (length carry) s) F Es) as (q & E & _ & _ & Q1 & Q2 & _).
  - apply skipn_ne. exact La.
  - exists k, a, c. split; [reflexivity|]. do 4 (split; [assumption|]). split; [exact Ha|]. split; [|split; reflexivity].
    rewrite filter_app in H3. destruct (filter k_haspl a); [exact I|exact H3].
  - exact (X3 s F).
  - exists q. split; [exact E|]. split; [exact Q2|]. rewrite Q1. unfold last_cc. rewrite (counted_all _ _ C3). reflexivity.
Qed.

Lemma rest_got k r s cc p t ts : carries (k :: sent_packets r) s -> framed s -> counted cc (k :: sent_packets r) ->
  Forall (fun k => (3 <= length (k_payload k))%nat) (sent_packets r) ->
  Forall2 rd (filter f (got_of ((k, false) :: r, s))) ts -> exists q, receive m parse p t (map encode (k :: copies r)) = Ok (q, fold_left add ts t).
Proof.
  intros Ca F C O3 R. cbn [got_of fst snd andb] in R.
  assert (O : conts (sent_packets r)).
  { destruct C as (_ & _ & C3). destruct Ca as (k1 & ks1 & c & st & El & _ & _ & _ & _ & Hc & _). injection El as <- <-.
    pose proof (continues_all _ _ C3 Hc) as O. clear - O O3. unfold conts. rewrite Forall_forall in *. intros x H. destruct (O x H). auto. }
  destruct (split_double r) as [E|(a & k' & b & ->)].
  - rewrite E in R |- *. rewrite copies_once. rewrite cuts_once in R. unfold once in R at 1. rewrite map_length, Nat.eqb_refl in R. cbn [repeat map concat] in R. rewrite app_nil_r in R.
    destruct (whole_section k (sent_packets r) s cc p t ts Ca F C R) as (q & Eq & _). exists q. exact Eq.
  - rewrite cuts_double in R. rewrite sent_app, sent_once in Ca, C, O. cbn [sent_packets map fst] in Ca, C, O. fold (sent_packets b) in *.
    rewrite copies_app, copies_once. change (copies ((k', true) :: b)) with ([k'] ++ [k'] ++ copies b). rewrite app_assoc.
    change (a ++ k' :: sent_packets b) with (a ++ [k'] ++ sent_packets b) in Ca, C, O. rewrite app_assoc in Ca, C, O. rewrite app_comm_cons, map_app, receive_app.
    assert (K : packet_ok k' /\ k_pusi k' = false /\ k_haspl k' = true /\ conts (sent_packets b)).
    { apply Forall_app in O as [O1 O2]. apply Forall_app in O1 as [_ O1]. inversion O1 as [|? ? (K1 & K2 & _) _]; subst.
      destruct C as (_ & _ & C). apply counted_app in C as [C _]. apply counted_app in C as [_ (C & _)]. unfold conts. auto. }
    destruct K as (K1 & K2 & K3 & O2).
    assert (Lg : (length (a ++ [k']) =? length (once a ++ (k', true) :: b))%nat = match b with [] => true | _ => false end).
    { rewrite !app_length. unfold once. rewrite map_length. cbn [length]. destruct b; cbn [length]; [apply Nat.eqb_refl|apply Nat.eqb_neq; lia]. }
    rewrite Lg in R. destruct b as [|y b].
    + cbn [sent_packets map] in Ca, C. rewrite app_nil_r in Ca, C. cbn [cuts map concat taken_for repeat app] in R.
      destruct (whole_section k (a ++ [k']) s cc p t ts Ca F C) as (q & Eq & Q1 & Q2); [rewrite app_nil_r in R; exact R|].
      rewrite Eq. cbn [bind copies map concat app]. rewrite map_app in Q2. cbn [map] in Q2. rewrite last_app_cons in Q2. cbn [last] in Q2.
      rewrite (second_copy k' q _ K1 K3 K2 Q1 Q2). eauto.
    + cbn [app] in R. set (y' := y :: b) in *. destruct (first_packets k (a ++ [k']) (sent_packets y') s cc p t Ca F C) as (q & Eq & Q1 & Q2); [discriminate|].
      rewrite Eq. cbn [bind]. rewrite map_app, receive_app. cbn [map]. rewrite map_app in Q2. cbn [map] in Q2. rewrite last_app_cons in Q2. cbn [last] in Q2.
      rewrite (second_copy k' q _ K1 K3 K2 Q1 Q2). cbn [bind]. apply (segments (length y') y' (psi_clear q) t ts (le_n _)).
      * apply blank_clear. exact Q1.
      * cbn [psi_clear p_cc]. rewrite Q2. destruct C as (_ & _ & C). apply counted_app in C as [_ C]. rewrite map_app in C. cbn [map] in C. rewrite last_app_cons in C. exact C.
      * exact O2.
      * exact R.
Qed.
Lemma section_got l s cc p t ts : carries (sent_packets l) s -> framed s -> counted cc (sent_packets l) ->
  Forall (fun k => (3 <= length (k_payload k))%nat) (tl (sent_packets l)) ->
  Forall2 rd (filter f (got_of (l, s))) ts -> exists q, receive m parse p t (map encode (copies l)) = Ok (q, fold_left add ts t).
Proof.
  intros Ca F C O R. destruct l as [|[k b] r]; [inversion R; exists p; reflexivity|]. cbn [sent_packets map fst tl] in Ca, C, O. fold (sent_packets r) in *. destruct b.
  - change (copies ((k, true) :: r)) with ([k] ++ k :: copies r). rewrite map_app, receive_app. cbn [map]. destruct r as [|x r].
    + cbn in R. apply (filter_firstn_app f rd [s] [s]) in R as (t1 & t2 & -> & R1 & R2).
      destruct (whole_section k [] s cc p t t1 Ca F C R1) as (q & Eq & _). cbn [map] in Eq. rewrite Eq. cbn [bind copies map concat app]. rewrite fold_left_app.
      destruct (whole_section k [] s cc q (fold_left add t1 t) t2 Ca F C R2) as (q' & Eq' & _). exists q'. exact Eq'.
    + destruct (start_copy k (sent_packets (x :: r)) s p t Ca F) as [q Eq]; [discriminate|]. rewrite Eq. cbn [bind]. exact (rest_got k (x :: r) s cc q t ts Ca F C O R).
  - exact (rest_got k r s cc p t ts Ca F C O R).
Qed.
Lemma all_got xs : repeated xs -> forall p t ts, Forall2 rd (filter f (got xs)) ts ->
  exists q, receive m parse p t (map encode (concat (map (fun x => copies (fst x)) xs))) = Ok (q, fold_left add ts t).
Proof.
  induction 1 as [|[l s] xs (Ca & F & [cc C] & O) _ IH]; intros p t ts R; [inversion R; exists p; reflexivity|].
  unfold got in R. cbn [map concat fst snd] in *. apply (filter_firstn_app f rd _ _) in R as (t1 & t2 & -> & R1 & R2).
  destruct (section_got l s cc p t t1 Ca F C O R1) as [q E]. rewrite map_app, receive_app, E. cbn [bind]. rewrite fold_left_app. exact (IH q _ t2 R2).
Qed.
End Double.

Lemma ends_got l s : l <> [] -> only_ends l -> got_of (l, s) = repeat s (match l with [(_, true)] => 2 | _ => 1 end).
Proof.
  intros Ne H. destruct l as [|[k b] r]; [congruence|]. unfold only_ends in H. cbn [tl] in H. cbn [got_of fst snd].
  destruct r as [|x0 r0] eqn:Er; [destruct b; reflexivity|]. rewrite <- Er in *. assert (Nr : r <> []) by (rewrite Er; discriminate).
  assert (Lr : (length r =? 0)%nat = false) by (rewrite Er; reflexivity). rewrite Lr, andb_false_r.
  transitivity (repeat s 1); [|destruct b; reflexivity]. clear x0 r0 Er Lr Ne.
  destruct (exists_last Nr) as (a & [k' b'] & ->). rewrite removelast_last in H.
  assert (Ea : a = once (sent_packets a)).
  { clear - H. induction H as [|[x y] a H _ IH]; [reflexivity|]. cbn in H. subst y. cbn [sent_packets map fst once]. f_equal. exact IH. }
  rewrite Ea. set (a1 := sent_packets a). destruct b'.
  - rewrite cuts_double. replace (length (a1 ++ [k']) =? length (once a1 ++ [(k', true)]))%nat with true; [reflexivity|].
    symmetry. apply Nat.eqb_eq. rewrite !app_length. unfold once. rewrite map_length. reflexivity.
  - change [(k', false)] with (once [k']). unfold once. rewrite <- map_app. fold (once (a1 ++ [k'])). rewrite cuts_once.
    replace (length (a1 ++ [k']) =? length (once (a1 ++ [k'])))%nat with true; [reflexivity|].
    symmetry. apply Nat.eqb_eq. unfold once. rewrite map_length. reflexivity.
Qed.

Lemma middle_got k b a k1 c s : c <> [] -> got_of ((k, b) :: once a ++ (k1, true) :: once c, s) = taken_for c.
Proof.
  intros Ne. cbn [got_of fst snd]. rewrite cuts_double, cuts_once.
  replace (length (a ++ [k1]) =? length (once a ++ (k1, true) :: once c))%nat with false.
  - cbn [map concat app]. apply app_nil_r.
  - symmetry. apply Nat.eqb_neq. rewrite !app_length. unfold once. cbn [length]. rewrite !map_length. destruct c; [congruence|]. cbn [length]. lia.
Qed.
(** leaving out repeats *)
Lemma encode_cc k1 k2 : packet_ok k1 -> packet_ok k2 -> encode k1 = encode k2 -> k_cc k1 = k_cc k2.
Proof.
  intros (_ & L1 & _) (_ & L2 & _) E. apply (f_equal (fun l => field l 28 4)) in E. unfold encode in E. rewrite !W_ts.f_cc in E.
  rewrite !N.mod_small in E by assumption. exact E.
Qed.
Lemma drop_copies l : forall cc, counted cc (sent_packets l) -> Forall packet_ok (sent_packets l) ->
  drop_repeats (map encode (copies l)) = map encode (sent_packets l).
Proof.
  induction l as [|[k b] l IH]; intros cc C O; [reflexivity|]. cbn [sent_packets map fst] in *. fold (sent_packets l) in *.
  destruct C as (_ & _ & C). inversion O as [|? ? O1 O2]; subst. specialize (IH _ C O2).
  assert (Z : drop_repeats (map encode (k :: copies l)) = encode k :: map encode (sent_packets l)).
  { cbn [map drop_repeats]. rewrite IH. destruct (sent_packets l) as [|k2 l2]; [reflexivity|]. cbn [map].
    destruct (list_eq_dec N.eq_dec (encode k) (encode k2)) as [E|E]; [|reflexivity]. exfalso.
    inversion O2 as [|? ? O3 _]; subst. apply encode_cc in E; [|assumption|assumption]. destruct C as (_ & C & _). destruct O1 as (_ & L & _). clear - E C L. dlia. }
  destruct b; [|exact Z]. change (copies ((k, true) :: l)) with (k :: k :: copies l). cbn [map] in Z |- *.
  transitivity (encode k :: match drop_repeats (encode k :: map encode (copies l)) with [] => [] | y :: r => if list_eq_dec N.eq_dec (encode k) y then r else y :: r end);
    [reflexivity|rewrite Z].
  destruct (list_eq_dec N.eq_dec (encode k) (encode k)) as [_|E]; [reflexivity|congruence].
Qed.
