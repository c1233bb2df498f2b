(** Proofs: loss of packets. *)
From Verif Require Import Prelude Layout Facts Facts2 S_ts S_crc S_utils S_psi M_bytes M_ts M_crc M_utils M_psi M_drive M_recv M_desc S_desc
  M_tables S_tables P_bytes P_crc P_utils P_psi P_mux P_mux2 P_sect P_mux3 P_desc P_desc2 P_desc3 W_psi W_desc P_tab P_tab2 P_tab5 P_tab6 P_tab7 W_tables
  M_reader S_reader P_reader M_system S_system P_sys P_sys2 S_packed P_packed S_loss.

Fixpoint after (s : sync) (l : marked) : sync :=
  match l with
  | [] => s
  | (k, false) :: l' => after (miss s) l'
  | (k, true) :: l' => after (if k_pusi k then In_step else match s with Behind d => Behind (S d) | x => x end) l'
  end.
Lemma gaps_app a : forall s b, gaps_show s (a ++ b) <-> gaps_show s a /\ gaps_show (after s a) b.
Proof.
  induction a as [|[k []] a IH]; intros s b; cbn [app gaps_show after]; [tauto| |apply IH].
  destruct (k_pusi k); [apply IH|]. destruct s; [tauto|apply IH|rewrite IH; tauto].
Qed.
Lemma after_app a : forall s b, after s (a ++ b) = after (after s a) b.
Proof. induction a as [|[k []] a IH]; intros s b; [reflexivity| |]; cbn [app after]; apply IH. Qed.
Lemma counted_app a : forall cc b, counted cc (a ++ b) <-> counted cc a /\ counted (last (map k_cc a) cc) b.
Proof.
  induction a as [|k a IH]; intros cc b; cbn [app counted map]; [cbn; tauto|]. rewrite last_cons, IH. tauto.
Qed.

Lemma last_app_cons {A} (a : list A) : forall x l d, last (a ++ x :: l) d = last l x.
Proof. induction a as [|y a IH]; intros x l d; [apply last_cons|]. cbn [app]. rewrite last_cons. apply IH. Qed.

(** the receiver's counter; [cc] is the one sent last *)
Definition knows (s : sync) (cc : N) (p : psi) : Prop :=
  match s with
  | Nothing => True
  | In_step => p_cc p < 16 /\ cc = p_cc p
  | Behind d => p_cc p < 16 /\ (cc + 1) mod 16 = (p_cc p + N.of_nat d) mod 16
  end.
Lemma knows_miss s cc cc' p p' : cc' = (cc + 1) mod 16 -> p_cc p' = p_cc p -> knows s cc p -> knows (miss s) cc' p'.
Proof.
  intros -> E. destruct s; cbn [knows miss]; rewrite ?E; [tauto| |].
  - intros [H ->]. split; [exact H|]. change (N.of_nat 2) with 2. clear. dlia.
  - intros [H1 H2]. split; [exact H1|]. rewrite H2. clear. dlia.
Qed.
Definition lagging (s : sync) : Prop := match s with In_step => False | _ => True end.
Lemma miss_lags s : lagging (miss s).
Proof. destruct s; exact I. Qed.

Lemma parse_cleared {T} (parse : T -> psi -> res T) f rd add (X : readable parse f rd add) t p s : framed s -> parse t (psi_clear p) = Ok t.
Proof.
  intros F. pose proof (framed_len s F) as L. destruct X as (_ & _ & W). apply (W s F t (psi_clear p) [] s); [reflexivity| |].
  - destruct s; [cbn in L; lia|discriminate].
  - split; [cbn; lia|]. intros _. split; reflexivity.
Qed.

Lemma counted_all cc l : counted cc l -> filter k_haspl l = l.
Proof. revert cc. induction l as [|k l IH]; intros cc H; [reflexivity|]. destruct H as (H1 & _ & H3). cbn [filter]. rewrite H1. f_equal. exact (IH _ H3). Qed.
Lemma whole_cc m p k ks q : counted (k_cc k) ks -> continues (k_cc k) ks -> packet_ok k -> k_haspl k = true -> k_pusi k = true -> forall c, k_payload k = 0 :: c ->
  match filter k_haspl ks with [] => True | k' :: _ => (3 <= length c + length (k_payload k'))%nat end ->
  mux_all m p (map encode (k :: ks)) = Ok q -> p_cc q = last (map k_cc ks) (k_cc k).
Proof.
  intros C H Hk Hpl Hpu c Hpay H3 E. destruct (mux_legal m p [] k ks [] c) as (p' & E' & _ & Hcc & _); try assumption.
  - constructor.
  - cbn. lia.
  - left. reflexivity.
  - cbn [app] in E'. rewrite E in E'. injection E' as ->. rewrite Hcc. unfold last_cc. rewrite (counted_all _ _ C). reflexivity.
Qed.

Section Loss.
Context {T : Type} (m : mode) (parse : T -> psi -> res T) (f : list N -> bool) (rd : list N -> T -> Prop) (add : T -> T -> T).
Context (X1 : forall t s extra u i cc, framed s -> bytes extra -> f s = true -> rd s u -> parse t (mkPsi (s ++ extra) (length s) i cc) = Ok (add t u)).
Context (X2 : forall t s extra i cc, framed s -> bytes extra -> f s = false -> parse t (mkPsi (s ++ extra) (length s) i cc) = Ok t).
Context (X0 : forall t p, parse t (psi_clear p) = Ok t).

(** continuations behind a gap *)
Lemma broken l : forall y cc p t, Forall (fun k => packet_ok k /\ k_pusi k = false) (sent_packets l) -> counted cc (sent_packets l) -> gaps_show y l ->
  lagging y -> knows y cc p -> exists p', receive m parse p t (map encode (arrived l)) = Ok (p', t) /\ knows (after y l) (last (map k_cc (sent_packets l)) cc) p'.
Proof.
  induction l as [|[k b] l IH]; intros y cc p t O C G Lg B; [exists p; split; [reflexivity|exact B]|].
  cbn [sent_packets map fst] in O, C |- *. inversion O as [|? ? [Ok1 Ok2] O']; subst. destruct C as (C1 & C2 & C3). rewrite last_cons.
  cbn [after gaps_show] in *. destruct b.
  - rewrite Ok2 in *. destruct y as [| |d]; [contradiction|contradiction|]. destruct G as [Hd G]. change (arrived ((k, true) :: l)) with (k :: arrived l). cbn [map receive].
    destruct B as [Bc Eq].
    assert (Nk : k_cc k <> (p_cc p + 1) mod 16) by (rewrite C2, Eq; clear - Bc Hd; dlia).
    rewrite (mux_break m p k Ok1 C1 Ok2 Bc Nk). cbn [bind]. rewrite (X0 t p). cbn [bind].
    apply (IH (Behind (S d)) (k_cc k) (psi_clear p) t O' C3 G I). apply (knows_miss (Behind d) cc _ p); [exact C2|reflexivity|split; assumption].
  - change (arrived ((k, false) :: l)) with (arrived l). apply (IH (miss y) (k_cc k) p t O' C3 G (miss_lags y)).
    apply (knows_miss y cc _ p); [exact C2|reflexivity|exact B].
Qed.
Lemma continues_all cc ks : counted cc ks -> continues cc ks -> Forall (fun k => packet_ok k /\ k_pusi k = false) ks.
Proof.
  revert cc. induction ks as [|k ks IH]; intros cc C H; [constructor|]. destruct C as (C1 & C2 & C3). cbn [continues] in H. rewrite C1 in H.
  destruct H as (H1 & H2 & _ & _ & H3). constructor; [auto|]. exact (IH _ C3 H3).
Qed.
Lemma split_marks (l : marked) : forallb snd l = true \/
  exists a k b, l = map (fun x => (x, true)) a ++ (k, false) :: b.
Proof.
  induction l as [|[k []] l IH]; [left; reflexivity| |right; exists [], k, l; reflexivity]. destruct IH as [IH|(a & k' & b & ->)]; [left; exact IH|].
  right. exists (k :: a), k', b. reflexivity.
Qed.
Lemma all_marked (l : marked) : forallb snd l = true -> l = map (fun x => (x, true)) (sent_packets l).
Proof. induction l as [|[k []] l IH]; intros H; [reflexivity| |discriminate]. cbn [sent_packets map fst]. f_equal. exact (IH H). Qed.
Lemma arrived_all a : arrived (map (fun x => (x, true)) a) = a.
Proof. unfold arrived. induction a as [|k a IH]; [reflexivity|]. cbn [map filter snd fst]. f_equal. exact IH. Qed.
Lemma sent_all a : sent_packets (map (fun x => (x, true)) a) = a.
Proof. unfold sent_packets. rewrite map_map. apply map_id. Qed.
Lemma forallb_all a : forallb snd (map (fun x : packet => (x, true)) a) = true.
Proof. induction a; [reflexivity|assumption]. Qed.
Lemma arrived_app a b : arrived (a ++ b) = arrived a ++ arrived b.
Proof. unfold arrived. rewrite filter_app, map_app. reflexivity. Qed.
Lemma sent_app a b : sent_packets (a ++ b) = sent_packets a ++ sent_packets b.
Proof. apply map_app. Qed.
Lemma after_all a : Forall (fun k => packet_ok k /\ k_pusi k = false) a -> after In_step (map (fun x => (x, true)) a) = In_step.
Proof. induction 1 as [|k a [_ H] _ IH]; [reflexivity|]. cbn [map after]. rewrite H. exact IH. Qed.
Lemma receive_mux l : forall p t q u, receive m parse p t l = Ok (q, u) -> mux_all m p l = Ok q.
Proof.
  induction l as [|x l IH]; intros p t q u H; cbn [receive mux_all] in *; [congruence|].
  apply bind_inv in H as (p1 & -> & H). cbn [bind]. apply bind_inv in H as (t1 & _ & H). exact (IH _ _ _ _ H).
Qed.
Lemma one_section l s y cc p t ts : carries (sent_packets l) s -> framed s -> counted cc (sent_packets l) -> gaps_show y l -> knows y cc p -> length (sent_packets l) = 1%nat \/ waits parse s ->
  Forall2 rd (filter f (if forallb snd l then [s] else [])) ts ->
  exists p', receive m parse p t (map encode (arrived l)) = Ok (p', fold_left add ts t) /\ knows (after y l) (last (map k_cc (sent_packets l)) cc) p'.
Proof.
  intros Ca F Co Ti B Wt R. pose proof Ca as (k & ks & c & st & El & Hk & Hpl & Hpu & Hpay & Hc & H3 & Hall & Hinc).
  destruct l as [|[k0 b] l]; [discriminate|]. cbn [sent_packets map fst] in El, Co |- *. injection El as -> El. fold (sent_packets l) in *. subst ks.
  destruct Co as (_ & C2 & C3). rewrite last_cons. pose proof (continues_all _ _ C3 Hc) as O. destruct b.
  - destruct (split_marks l) as [W|(a & k' & b & ->)].
    + (* everything arrives *)
      rewrite (all_marked l W) in *. rewrite sent_all in *. set (ks := sent_packets l) in *. clearbody ks. clear l W.
      cbn [forallb snd andb] in R. rewrite forallb_all in R.
      change (arrived ((k, true) :: map (fun x => (x, true)) ks)) with (k :: arrived (map (fun x => (x, true)) ks)). rewrite arrived_all.
      destruct (receive_carried m parse p t (k :: ks) s F) as (cc' & Hcc' & E); [exists k, ks, c, st; auto 12|cbn [sent_packets map fst] in Wt; fold (sent_packets (map (fun x : packet => (x, true)) ks)) in Wt; rewrite sent_all in Wt; exact Wt|].
      cbv zeta in E. pose proof (look_parse parse f rd add X1 X2 t s [] ts (p_pid p) cc' F ltac:(constructor) R) as E'. rewrite app_nil_r in E'. rewrite E' in E.
      cbn [bind] in E. eexists. split; [exact E|]. apply receive_mux in E. apply (whole_cc m p k ks _ C3 Hc Hk Hpl Hpu c Hpay H3) in E. cbn [p_cc] in E.
      cbn [after]. rewrite Hpu, after_all by assumption. split; [exact Hcc'|]. cbn [p_cc]. rewrite E. reflexivity.
    + (* the beginning arrives *)
      rewrite sent_app, sent_all in *. cbn [sent_packets map fst] in C3, Hc, H3, Hall, Hinc, O |- *. fold (sent_packets b) in *.
      cbn [forallb snd andb] in R. rewrite forallb_app in R. cbn [forallb snd andb] in R. rewrite andb_false_r in R. inversion R; subst ts. cbn [fold_left].
      change (arrived ((k, true) :: map (fun x => (x, true)) a ++ (k', false) :: b)) with (k :: arrived (map (fun x => (x, true)) a ++ (k', false) :: b)).
      rewrite arrived_app, arrived_all. change (arrived ((k', false) :: b)) with (arrived b).
      apply counted_app in C3 as [C3 C4]. destruct C4 as (C4 & C5 & C6). apply Forall_app in O as [O1 O2]. inversion O2 as [|? ? _ O3]; subst.
      cbn [gaps_show] in Ti. rewrite Hpu in Ti. rewrite gaps_app in Ti. destruct Ti as [_ Ti]. cbn [gaps_show] in Ti.
      cbn [after]. rewrite Hpu, after_app. cbn [after]. rewrite after_all in Ti |- * by assumption.
      set (carry := c ++ carried a).
      assert (La : (length carry < length s)%nat).
      { specialize (Hinc (length a)). rewrite firstn_app, firstn_all, Nat.sub_diag, firstn_O, app_nil_r in Hinc. apply Hinc. rewrite app_length. cbn [length]. lia. }
      assert (Es : s = carry ++ skipn (length carry) s).
      { transitivity (firstn (length carry) s ++ skipn (length carry) s); [symmetry; apply firstn_skipn|]. f_equal.
        transitivity (firstn (length carry) (s ++ st)); [rewrite firstn_app; replace (length carry - length s)%nat with 0%nat by lia; rewrite firstn_O, app_nil_r; reflexivity|].
        rewrite <- Hall, carried_app, app_assoc. fold carry. rewrite firstn_app, Nat.sub_diag, firstn_all, firstn_O, app_nil_r. reflexivity. }
      assert (Ha : continues (k_cc k) a).
      { apply (continues_firstn (length a)) in Hc. rewrite firstn_app, firstn_all, Nat.sub_diag, firstn_O, app_nil_r in Hc. exact Hc. }
      destruct (receive_begins m parse p t (k :: a) (last_cc (k_cc k) a) carry s (skipn (length carry) s) F Es) as (q & E & _ & _ & Q1 & Q2 & _).
      { apply skipn_ne. exact La. }
      { exists k, a, c. split; [reflexivity|]. do 4 (split; [assumption|]). split; [exact Ha|]. split; [|split; reflexivity].
        rewrite filter_app in H3. destruct (filter k_haspl a); [exact I|exact H3]. }
      { destruct Wt as [Wt|Wt]; [|exact Wt]. exfalso. unfold sent_packets in Wt. rewrite map_length in Wt. cbn [length] in Wt. rewrite app_length in Wt. cbn [length] in Wt. lia. }
      rewrite app_comm_cons, map_app, receive_app, E. cbn [bind]. rewrite map_app. cbn [map]. rewrite last_app_cons.
      apply (broken b (miss In_step) (k_cc k') q t O3 C6 Ti (miss_lags _)).
      apply (knows_miss In_step (last (map k_cc a) (k_cc k)) _ q); [exact C5|reflexivity|]. split; [exact Q2|]. rewrite Q1. unfold last_cc. rewrite (counted_all _ _ C3). reflexivity.
  - (* the start is lost *)
    cbn [forallb snd andb] in R. inversion R; subst ts. cbn [fold_left]. change (arrived ((k, false) :: l)) with (arrived l).
    cbn [gaps_show after] in *. apply (broken l (miss y) (k_cc k) p t O C3 Ti (miss_lags y)). apply (knows_miss y cc _ p); [exact C2|reflexivity|exact B].
Qed.

Lemma all_sections' xs : transmitted xs -> Forall (fun x => length (sent_packets (fst x)) = 1%nat \/ waits parse (snd x)) xs -> forall y cc p t ts, counted cc (sent_packets (on_the_way xs)) -> gaps_show y (on_the_way xs) -> knows y cc p ->
  Forall2 rd (filter f (intact xs)) ts ->
  exists q, receive m parse p t (map encode (arrived (on_the_way xs))) = Ok (q, fold_left add ts t).
Proof.
  induction 1 as [|[l s] xs [Ca F] _ IH]; intros Wt y cc p t ts Co Ti B R; [inversion R; subst; exists p; reflexivity|]. inversion Wt as [|? ? W1 W2]; subst.
  unfold on_the_way in *. cbn [map fst snd concat] in *. rewrite sent_app in Co. apply counted_app in Co as [C1 C2]. apply gaps_app in Ti as [T1 T2].
  assert (R' : exists t1 t2, ts = t1 ++ t2 /\ Forall2 rd (filter f (if forallb snd l then [s] else [])) t1 /\ Forall2 rd (filter f (intact xs)) t2).
  { unfold intact in R |- *. cbn [filter fst] in R. destruct (forallb snd l).
    - cbn [map snd] in R. apply (filter_firstn_app f rd [s]) in R. exact R.
    - exists [], ts. split; [reflexivity|]. split; [constructor|exact R]. }
  destruct R' as (t1 & t2 & -> & R1 & R2). rewrite arrived_app, map_app, receive_app.
  destruct (one_section l s y cc p t t1 Ca F C1 T1 B W1 R1) as (p' & E & B'). rewrite E. cbn [bind]. rewrite fold_left_app.
  exact (IH W2 _ _ p' (fold_left add t1 t) t2 C2 T2 B' R2).
Qed.
End Loss.
Lemma all_sections {T} m (parse : T -> psi -> res T) f rd add : readable parse f rd add -> forall xs, transmitted xs -> forall y cc p t ts, counted cc (sent_packets (on_the_way xs)) ->
  gaps_show y (on_the_way xs) -> knows y cc p -> Forall2 rd (filter f (intact xs)) ts ->
  exists q, receive m parse p t (map encode (arrived (on_the_way xs))) = Ok (q, fold_left add ts t).
Proof.
  intros X xs Tr. pose proof X as (X1 & X2 & X3). apply (all_sections' m parse f rd add X1 X2); [|exact Tr|].
  - intros t p. apply (parse_cleared parse f rd add X t p [0; 0; 0]). split; [repeat constructor|reflexivity].
  - eapply Forall_impl; [|exact Tr]. intros x [_ F]. right. exact (X3 _ F).
Qed.

(** the packets of this library *)
Lemma number_counted pid ps : forall cc b, cc < 16 -> counted ((cc + 15) mod 16) (number_k pid cc b ps).
Proof.
  induction ps as [|c ps IH]; intros cc b H; [exact I|]. cbn [number_k counted k_haspl k_cc]. split; [reflexivity|]. split; [clear - H; dlia|].
  pose proof (IH ((cc + 1) mod 16) false ltac:(apply N.mod_lt; discriminate)) as G. replace (((cc + 1) mod 16 + 15) mod 16) with cc in G by (clear - H; dlia). exact G.
Qed.
Lemma number_last pid ps : forall cc b, cc < 16 -> last (map k_cc (number_k pid cc b ps)) ((cc + 15) mod 16) = (cc + N.of_nat (length ps) + 15) mod 16.
Proof.
  induction ps as [|c ps IH]; intros cc b H; [cbn [number_k map last length]; clear - H; dlia|]. cbn [number_k map length]. rewrite last_cons. cbn [k_cc].
  specialize (IH ((cc + 1) mod 16) false ltac:(apply N.mod_lt; discriminate)). replace (((cc + 1) mod 16 + 15) mod 16) with cc in IH by (clear - H; dlia).
  rewrite IH. clear. dlia.
Qed.
Lemma stream_counted pid ss : Forall framed ss -> forall cc, cc < 16 -> exists ls, stream pid cc ss = map encode (concat ls) /\ Forall2 carries ls ss /\
  counted ((cc + 15) mod 16) (concat ls).
Proof.
  induction 1 as [|s ss F _ IH]; intros cc Hcc; [exists []; repeat split; constructor|].
  destruct (section_carried pid cc s F Hcc) as (l & E & C & L & ps & Ep).
  set (cc' := (cc + N.of_nat (length (section_packets pid cc s))) mod 16).
  destruct (IH cc') as (ls & E' & C' & A'); [apply N.mod_lt; discriminate|].
  exists (l :: ls). split; [|split; [constructor; assumption|]].
  - rewrite stream_cons. fold cc'. rewrite E'. rewrite E at 1. cbn [concat]. rewrite map_app. reflexivity.
  - cbn [concat]. apply counted_app. rewrite Ep at 1. split; [apply number_counted; exact Hcc|]. rewrite Ep, number_last by exact Hcc.
    replace ((cc + N.of_nat (length ps) + 15) mod 16) with ((cc' + 15) mod 16); [exact A'|]. unfold cc'. rewrite E, map_length, Ep, number_k_length. clear. dlia.
Qed.

(** losses that always show *)
Lemma short_rest l : forall y, Forall (fun k => packet_ok k /\ k_pusi k = false) (sent_packets l) ->
  match y with Nothing => False | In_step => (length l <= 16)%nat | Behind d => (2 <= d)%nat /\ (d + length l <= 17)%nat end -> gaps_show y l.
Proof.
  induction l as [|[k b] l IH]; intros y O H; [exact I|]. cbn [sent_packets map fst] in O. inversion O as [|? ? [_ O1] O2]; subst.
  cbn [gaps_show length] in *. destruct b.
  - rewrite O1. destruct y as [| |d]; [contradiction|apply IH; [assumption|lia]|]. split; [|apply IH; [assumption|lia]].
    assert (d <= 16)%nat by lia. intros E. assert (d = 1 \/ d >= 17)%nat by dlia. lia.
  - apply IH; [assumption|]. destruct y as [| |d]; cbn [miss]; [contradiction|lia|lia].
Qed.
Lemma starts_arrive xs : transmitted xs -> forall cc y, counted cc (sent_packets (on_the_way xs)) ->
  Forall (fun x => (length (fst x) <= 17)%nat /\ forall k b l, fst x = (k, b) :: l -> b = true \/ l = []) xs -> gaps_show y (on_the_way xs).
Proof.
  induction 1 as [|[l s] xs [Ca F] _ IH]; intros cc y Co H; [exact I|]. inversion H as [|? ? [H1 H2] H3]; subst. unfold on_the_way in *. cbn [map fst snd concat] in *.
  rewrite sent_app in Co. apply counted_app in Co as [C1 C2]. apply gaps_app. split; [|exact (IH _ _ C2 H3)].
  destruct Ca as (k & ks & c & st & El & Hk & Hpl & Hpu & Hpay & Hc & _). destruct l as [|[k0 b] l]; [discriminate|].
  cbn [sent_packets map fst] in El, C1. injection El as -> El. fold (sent_packets l) in *. destruct C1 as (_ & _ & C1). rewrite <- El in Hc.
  pose proof (continues_all _ _ C1 Hc) as O. destruct (H2 k b l eq_refl) as [-> | ->].
  - cbn [gaps_show]. rewrite Hpu. apply short_rest; [exact O|]. cbn [length] in H1. lia.
  - destruct b; cbn [gaps_show]; [rewrite Hpu|]; exact I.
Qed.
