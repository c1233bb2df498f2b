(** Proofs about the player that looks at the counters (M_count). *)
From Verif Require Import Prelude Layout Facts S_ts M_bytes M_ts M_pes M_play S_play P_ts P_pes W_ts P_play M_count S_count.
From Verif Require P_desc.

Lemma own_cc pid pusi x : piece_ok x -> e_cc x < 16 -> get_cc (es_packet pid pusi x) = Ok (e_cc x).
Proof.
  intros (L & B1 & B2) C.
  assert (BA : bytes (af_bytes (e_af x))).
  { destruct (e_af x) as [b|]; [|constructor]. constructor; [|exact B1]. cbn [af_bytes length] in L. lia. }
  assert (B : bytes (af_bytes (e_af x) ++ e_data x)) by (apply bytes_app; split; assumption).
  pose proof (getters_of_table 0x47 0 pusi (e_prio x) pid 0 (match e_af x with Some _ => 1 | None => 0 end) 1 (e_cc x) _ B) as G.
  cbv zeta in G. fold (es_packet pid pusi x) in G. destruct G as (_ & _ & _ & _ & _ & _ & _ & G). rewrite G. rewrite N.mod_small by exact C. reflexivity.
Qed.
Lemma gather_foreign m pid ts l last cur : foreign pid ts -> gather m pid (ts :: l) last cur = gather m pid l last cur.
Proof.
  intros (L & B & F). destruct (header_getters ts L B) as (_ & _ & _ & G4 & _ & _ & G7 & _).
  cbn [gather]. rewrite G4. cbn [bind]. destruct (N.eqb_spec (field ts 11 13) pid) as [E|E]; [|reflexivity].
  cbn [negb]. rewrite G7. cbn [bind]. destruct F as [F|F]; [contradiction|]. rewrite F. reflexivity.
Qed.
Lemma gather_among m pid own l : among pid own l -> forall last cur, gather m pid l last cur = gather m pid own last cur.
Proof.
  induction 1 as [|p own l A IH|p own l F A IH]; intros last cur; [reflexivity| |rewrite gather_foreign by assumption; apply IH].
  cbn [gather]. destruct (get_pid p) as [i| |]; [|reflexivity|reflexivity]. cbn [bind].
  destruct (negb (i =? pid)); [apply IH|].
  destruct (is_payload p) as [q| |]; [|reflexivity|reflexivity]. cbn [bind].
  destruct (negb q); [apply IH|].
  destruct (get_cc p) as [c| |]; [|reflexivity|reflexivity]. cbn [bind].
  destruct (get_payload_offset m p) as [o| |]; [|reflexivity|reflexivity]. cbn [bind].
  destruct (slice_from p (N.to_nat o)) as [d| |]; [|reflexivity|reflexivity]. cbn [bind].
  destruct (is_pusi p) as [u| |]; [|reflexivity|reflexivity]. cbn [bind]. cbv zeta. rewrite !IH. reflexivity.
Qed.
Definition kept (last : option N) (c : N) (cur : option (list N)) : option (list N) :=
  match last with Some b => if c =? N.land (b + 1) 0x0F then cur else None | None => None end.
Lemma gather_start m pid x l last cur : piece_ok x -> pid < 8192 -> e_cc x < 16 -> gather m pid (es_packet pid 1 x :: l) last cur =
  (r <- gather m pid l (Some (e_cc x)) (Some (e_data x)) ;; Ok (match kept last (e_cc x) cur with Some y => y :: r | None => r end)).
Proof.
  intros X P C. destruct (own_getters m pid 1 x X P eq_refl) as (G1 & G2 & G3 & o & G4 & G5). cbn [gather].
  rewrite G1. cbn [bind]. rewrite N.eqb_refl. cbn [negb]. rewrite G2. cbn [bind negb]. rewrite (own_cc pid 1 x X C). cbn [bind]. rewrite G4. cbn [bind]. rewrite G5. cbn [bind]. rewrite G3. reflexivity.
Qed.
Lemma gather_more m pid x l last cur : piece_ok x -> pid < 8192 -> e_cc x < 16 -> gather m pid (es_packet pid 0 x :: l) last cur =
  gather m pid l (Some (e_cc x)) (match kept last (e_cc x) cur with Some y => Some (y ++ e_data x) | None => None end).
Proof.
  intros X P C. destruct (own_getters m pid 0 x X P eq_refl) as (G1 & G2 & G3 & o & G4 & G5). cbn [gather].
  rewrite G1. cbn [bind]. rewrite N.eqb_refl. cbn [negb]. rewrite G2. cbn [bind negb]. rewrite (own_cc pid 0 x X C). cbn [bind]. rewrite G4. cbn [bind]. rewrite G5. cbn [bind]. rewrite G3. reflexivity.
Qed.

(** [c]: the next counter, [k]: packets lost since the last that arrived, [e]: what has come of the PES packet if nothing of it is missing *)
Definition state (c : N) (k last : option N) (cur e : option (list N)) : Prop :=
  match k with
  | None => last = None /\ e = None
  | Some k => exists b, last = Some b /\ c = (b + 1 + k) mod 16 /\ (k = 0 -> cur = e) /\ (k <> 0 -> e = None)
  end.
Lemma lands b : N.land (b + 1) 0x0F = (b + 1) mod 16.
Proof. change 0x0F with (N.ones 4). rewrite N.land_ones. reflexivity. Qed.
(** what is kept is what has come *)
Lemma state_kept c k last cur e : state c k last cur e -> match k with Some k => k = 0 \/ k mod 16 <> 0 | None => True end -> kept last c cur = e.
Proof.
  unfold state, kept. destruct k as [k|]; [|intros (-> & ->); reflexivity].
  intros (b & -> & E & H0 & H1) S. rewrite lands. destruct (N.eqb_spec c ((b + 1) mod 16)) as [Q|Q].
  - destruct (N.eq_dec k 0) as [Z|Z]; [exact (H0 Z)|]. exfalso. destruct S as [S|S]; [contradiction|]. rewrite E in Q.
    apply S. revert Q. generalize (b + 1). intros n Q. dlia.
  - destruct (N.eq_dec k 0) as [->|Z]; [|symmetry; exact (H1 Z)]. rewrite N.add_0_r in E. contradiction.
Qed.
Lemma state_lost c k last cur e : state c k last cur e -> state ((c + 1) mod 16) (match k with Some k => Some (k + 1) | None => None end) last cur None.
Proof.
  unfold state. destruct k as [k|]; [|intros (-> & _); split; reflexivity].
  intros (b & -> & -> & _). exists b. split; [reflexivity|]. split; [|split; [lia|reflexivity]].
  replace (b + 1 + (k + 1)) with (b + 1 + k + 1) by lia. rewrite N.add_mod_idemp_l by discriminate. reflexivity.
Qed.
Lemma state_came c cur : state ((c + 1) mod 16) (Some 0) (Some c) cur cur.
Proof. exists c. rewrite N.add_0_r. repeat split. intros H. contradiction. Qed.

Lemma gather_rest m pid r l L : pid < 8192 -> Forall (fun y => piece_ok (fst y)) r -> forall c k last cur e, c < 16 -> state c k last cur e ->
  in_step c (later_pieces r ++ l) -> gaps_show k (later_pieces r ++ l) ->
  exists c' k' last' cur', c' < 16 /\ state c' k' last' cur' (if whole r then match e with Some d => Some (d ++ data r) | None => None end else None) /\
    in_step c' l /\ gaps_show k' l /\ gather m pid (arrived pid (later_pieces r) ++ L) last cur = gather m pid L last' cur'.
Proof.
  intros P F. induction F as [|[x b] r X F IH]; intros c k last cur e C S I G.
  - exists c, k, last, cur. cbn [whole forallb data map concat]. split; [exact C|]. split; [|split; [exact I|split; [exact G|reflexivity]]].
    destruct e as [d|]; [rewrite app_nil_r|]; exact S.
  - cbn [later_pieces map app fst snd in_step] in I. destruct I as [E I]. fold (later_pieces r) in I. cbn [fst] in X.
    assert (C' : (c + 1) mod 16 < 16) by (apply N.mod_lt; discriminate). destruct b.
    + cbn [later_pieces map app fst snd gaps_show] in G. destruct G as [G0 G]. fold (later_pieces r) in G.
      pose proof (state_kept c k last cur e S G0) as K.
      destruct (IH ((c + 1) mod 16) (Some 0) (Some c) (match e with Some d => Some (d ++ e_data x) | None => None end) _ C' (state_came c _) I G)
        as (c' & k' & last' & cur' & A1 & A2 & A3 & A4 & A5).
      exists c', k', last', cur'. split; [exact A1|]. split; [|split; [exact A3|split; [exact A4|]]].
      * cbn [whole forallb snd andb]. fold (whole r). destruct (whole r); [|exact A2]. destruct e as [d|]; [|exact A2].
        cbn [data map concat fst]. fold (data r). rewrite app_assoc. exact A2.
      * cbn [later_pieces map arrived flat_map fst snd app]. rewrite gather_more by (first [exact X|exact P|rewrite E; exact C]). rewrite E, K. exact A5.
    + cbn [later_pieces map app fst snd gaps_show] in G. fold (later_pieces r) in G.
      destruct (IH _ _ last cur None C' (state_lost c k last cur e S) I G) as (c' & k' & last' & cur' & A1 & A2 & A3 & A4 & A5).
      exists c', k', last', cur'. split; [exact A1|]. split; [|split; [exact A3|split; [exact A4|exact A5]]].
      cbn [whole forallb snd andb]. destruct (whole r); exact A2.
Qed.

Fixpoint given_from (e : option (list N)) (us : list marked) : list (list N) :=
  match us with
  | [] => []
  | u :: r => (if starts u then match e with Some d => [d] | None => [] end else []) ++ given_from (if whole u then Some (data u) else None) r
  end.
Fixpoint given0 (us : list marked) : list (list N) :=
  match us with u :: ((v :: _) as r) => (if whole u && starts v then [data u] else []) ++ given0 r | _ => [] end.
Lemma given_eq us : given_from None us = given0 us.
Proof.
  assert (H : forall us u, given_from (if whole u then Some (data u) else None) us = given0 (u :: us)).
  { clear us. intros us. induction us as [|v us IH]; intros u; [reflexivity|]. cbn [given_from given0]. rewrite (IH v). f_equal.
    destruct (starts v), (whole u); reflexivity. }
  destruct us as [|u us]; [reflexivity|]. cbn [given_from]. rewrite (H us u). destruct (starts u); reflexivity.
Qed.
Definition unit_ok (u : marked) : Prop := u <> [] /\ Forall (fun y => piece_ok (fst y)) u.
Lemma arrived_app pid a b : arrived pid (a ++ b) = arrived pid a ++ arrived pid b.
Proof. unfold arrived. apply flat_map_app. Qed.
Lemma gather_units m pid us : pid < 8192 -> Forall unit_ok us -> forall c k last cur e, c < 16 -> state c k last cur e ->
  in_step c (concat (map unit_pieces us)) -> gaps_show k (concat (map unit_pieces us)) ->
  gather m pid (arrived pid (concat (map unit_pieces us))) last cur = Ok (given_from e us).
Proof.
  intros P F. induction F as [|u us (N0 & X) F IH]; intros c k last cur e C S I G; [reflexivity|].
  destruct u as [|[x b] r]; [congruence|]. inversion X as [|? ? X1 X2]; subst. cbn [fst] in X1. cbn [map concat unit_pieces app in_step] in I.
  destruct I as [E I]. assert (C' : (c + 1) mod 16 < 16) by (apply N.mod_lt; discriminate).
  cbn [map concat unit_pieces]. change (((1, x, b) :: later_pieces r) ++ concat (map unit_pieces us)) with ([(1, x, b)] ++ later_pieces r ++ concat (map unit_pieces us)).
  rewrite (arrived_app pid [(1, x, b)]), (arrived_app pid (later_pieces r)). cbn [given_from starts]. destruct b.
  - cbn [map concat unit_pieces app gaps_show] in G. destruct G as [G0 G]. pose proof (state_kept c k last cur e S G0) as K.
    change (arrived pid [(1, x, true)] ++ ?l) with (es_packet pid 1 x :: l). rewrite gather_start by (first [exact X1|exact P|rewrite E; exact C]). rewrite E, K.
    destruct (gather_rest m pid r _ (arrived pid (concat (map unit_pieces us))) P X2 _ (Some 0) (Some c) (Some (e_data x)) _ C' (state_came c _) I G)
      as (c' & k' & last' & cur' & A1 & A2 & A3 & A4 & A5).
    rewrite A5, (IH c' k' last' cur' _ A1 A2 A3 A4). cbn [bind whole forallb snd andb data map concat fst]. destruct e; reflexivity.
  - cbn [map concat unit_pieces app gaps_show] in G.
    destruct (gather_rest m pid r _ (arrived pid (concat (map unit_pieces us))) P X2 _ _ last cur None C' (state_lost c k last cur e S) I G)
      as (c' & k' & last' & cur' & A1 & A2 & A3 & A4 & A5).
    change (arrived pid [(1, x, false)] ++ ?l) with l. rewrite A5. cbn [whole forallb snd andb app]. apply (IH c' k' last' cur' None A1); [|exact A3|exact A4]. destruct (whole r); exact A2.
Qed.
Lemma gather_all m pid c lead us l : pid < 8192 -> c < 16 -> Forall (fun y => piece_ok (fst y)) lead -> Forall unit_ok us ->
  in_step c (on_air lead us) -> gaps_show None (on_air lead us) -> among pid (arrived pid (on_air lead us)) l -> gather m pid l None None = Ok (given0 us).
Proof.
  intros P C L F I G A. rewrite (gather_among m pid _ l A). unfold on_air. rewrite arrived_app.
  destruct (gather_rest m pid lead _ (arrived pid (concat (map unit_pieces us))) P L c None None None None C (conj eq_refl eq_refl) I G)
    as (c' & k' & last' & cur' & A1 & A2 & A3 & A4 & A5).
  rewrite A5, <- given_eq. apply (gather_units m pid us P F c' k' last' cur' None A1); [|exact A3|exact A4]. destruct (whole lead); exact A2.
Qed.
Lemma given_map {A} (f : A -> list N) us : Forall (fun x => data (fst x) = f (snd x)) us -> given0 (map fst us) = map f (given us).
Proof.
  induction us as [|[u a] us IH]; intros F; [reflexivity|]. inversion F as [|? ? E F']; subst. cbn [fst snd] in E. specialize (IH F').
  destruct us as [|[v b] us]; [reflexivity|]. change (map fst ((u, a) :: (v, b) :: us)) with (u :: map fst ((v, b) :: us)).
  change (given0 (u :: map fst ((v, b) :: us))) with ((if whole u && starts v then [data u] else []) ++ given0 (map fst ((v, b) :: us))).
  change (given ((u, a) :: (v, b) :: us)) with ((if whole u && starts v then [a] else []) ++ given ((v, b) :: us)). rewrite IH, map_app. f_equal. destruct (whole u && starts v); [cbn [map]; rewrite E|]; reflexivity.
Qed.
Lemma given_in {A} (us : list (marked * A)) x : In x (given us) -> In x (map snd us).
Proof.
  induction us as [|[u a] us IH]; [intros []|]. destruct us as [|[v b] us]; [intros []|]. change (given ((u, a) :: (v, b) :: us)) with ((if whole u && starts v then [a] else []) ++ given ((v, b) :: us)). rewrite in_app_iff. intros [H|H].
  - destruct (whole u && starts v); [|destruct H]. destruct H as [->|[]]. left. reflexivity.
  - right. exact (IH H).
Qed.
Lemma given_whole {A} (us : list (marked * A)) : Forall (fun x => fst x <> [] /\ whole (fst x) = true) us -> given us = map snd (removelast us).
Proof.
  induction us as [|[u a] us IH]; intros F; [reflexivity|]. inversion F as [|? ? [N0 W] F']; subst. specialize (IH F'). destruct us as [|[v b] us]; [reflexivity|].
  cbn [fst] in *. change (removelast ((u, a) :: (v, b) :: us)) with ((u, a) :: removelast ((v, b) :: us)). change (given ((u, a) :: (v, b) :: us)) with ((if whole u && starts v then [a] else []) ++ given ((v, b) :: us)). cbn [map snd]. rewrite W, IH.
  inversion F' as [|? ? [N1 W1] _]; subst. cbn [fst] in N1, W1. destruct v as [|[y c] v]; [congruence|]. cbn [whole forallb snd] in W1. apply andb_prop in W1 as [W1 _].
  cbn [starts]. rewrite W1. reflexivity.
Qed.
Lemma gather_given m pid c lead (us : list (marked * list N)) l : pid < 8192 -> c < 16 -> Forall (fun y => piece_ok (fst y)) lead ->
  Forall (fun x => fst x <> [] /\ Forall (fun y => piece_ok (fst y)) (fst x) /\ data (fst x) = snd x) us ->
  in_step c (on_air lead (map fst us)) -> gaps_show None (on_air lead (map fst us)) -> among pid (arrived pid (on_air lead (map fst us))) l ->
  gather m pid l None None = Ok (given us).
Proof.
  intros P C L F I G A. rewrite (gather_all m pid c lead (map fst us) l P C L) by first [exact I|exact G|exact A|apply Forall_map; eapply Forall_impl; [|exact F]; intros x (H1 & H2 & _); exact (conj H1 H2)].
  rewrite (given_map (fun x => x) us) by (eapply Forall_impl; [|exact F]; intros x (_ & _ & H); exact H). rewrite map_id. reflexivity.
Qed.
Lemma careful_given m pid c lead (us : list (marked * (pes * bool))) l : pid < 8192 -> c < 16 -> Forall (fun y => piece_ok (fst y)) lead ->
  Forall (fun x => fst x <> [] /\ Forall (fun y => piece_ok (fst y)) (fst x) /\ data (fst x) = pes_bytes (fst (snd x)) (snd (snd x))) us ->
  Forall (fun x => pes_ok (fst (snd x)) /\ length_ok (fst (snd x)) (snd (snd x))) us ->
  in_step c (on_air lead (map fst us)) -> gaps_show None (on_air lead (map fst us)) -> among pid (arrived pid (on_air lead (map fst us))) l ->
  careful m pid l = Ok (map (fun x => Some (holds (fst x))) (given us)).
Proof.
  intros P C L F O I G A. unfold careful. rewrite (gather_all m pid c lead (map fst us) l P C L) by first [exact I|exact G|exact A|apply Forall_map; eapply Forall_impl; [|exact F]; intros x (H1 & H2 & _); exact (conj H1 H2)].
  cbn [bind]. rewrite (given_map (fun x => pes_bytes (fst x) (snd x)) us) by (eapply Forall_impl; [|exact F]; intros x (_ & _ & H); exact H).
  assert (K : Forall (fun x => pes_ok (fst x) /\ length_ok (fst x) (snd x)) (given us)).
  { apply Forall_forall. intros x X. apply given_in, in_map_iff in X as (y & <- & Y). exact (proj1 (Forall_forall _ _) O y Y). }
  clear -K. induction K as [|x r (K1 & K2) K IH]; [reflexivity|]. cbn [map open_all]. rewrite open_ok by assumption. cbn [bind]. rewrite IH. reflexivity.
Qed.
