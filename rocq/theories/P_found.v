(** Proofs for C104. *)
From Verif Require Import Prelude Layout S_ts M_ts M_reader M_play M_count S_reader S_play S_count S_found S_lossy.
From Verif Require S_damage P_damage P_reader P_count P_play P_ts Facts.

Lemma counted_step c l : in_step c l <-> counted c (map (fun y => snd (fst y)) l).
Proof. revert c. induction l as [|[[u x] b] l IH]; intros c; cbn [in_step counted map fst snd]; [tauto|]. rewrite IH. tauto. Qed.
Lemma on_air_pieces lead us : map (fun y => snd (fst y)) (on_air lead us) = map fst lead ++ concat (map (map fst) us).
Proof.
  unfold on_air, later_pieces. rewrite map_app, map_map. f_equal. induction us as [|u us IH]; [reflexivity|]. cbn [map concat]. rewrite map_app, IH. f_equal.
  destruct u as [|[x b] r]; [reflexivity|]. cbn [unit_pieces map fst snd]. unfold later_pieces. rewrite map_map. reflexivity.
Qed.
Lemma as_packets_got pid l : got (as_packets pid l) = arrived pid l.
Proof. induction l as [|[[u x] b] l IH]; [reflexivity|]. unfold got, as_packets, arrived in *. cbn [map filter fst snd flat_map]. destruct b; cbn [map fst app]; rewrite IH; reflexivity. Qed.

(** marks on packets are marks on pieces *)
Lemma mark_rest pid r : forall M, map fst M = map (es_packet pid 0) r -> exists r', map fst r' = r /\ as_packets pid (later_pieces r') = M.
Proof.
  induction r as [|x r IH]; intros [|[p b] M] E; try discriminate E; [exists []; split; reflexivity|]. injection E as E1 E2. destruct (IH M E2) as (r' & R1 & R2).
  exists ((x, b) :: r'). split; [cbn [map fst]; rewrite R1; reflexivity|]. cbn [fst] in E1. subst p. change (as_packets pid (later_pieces ((x, b) :: r'))) with ((es_packet pid 0 x, b) :: as_packets pid (later_pieces r')).
  rewrite R2. reflexivity.
Qed.
Lemma mark_unit pid u M : map fst M = unit_packets pid u -> exists u', map fst u' = u /\ as_packets pid (unit_pieces u') = M.
Proof.
  destruct u as [|x r]; intros E; [destruct M; [|discriminate E]; exists []; split; reflexivity|]. destruct M as [|[p b] M]; [discriminate E|]. injection E as E1 E2.
  destruct (mark_rest pid r M E2) as (r' & R1 & R2). exists ((x, b) :: r'). split; [cbn [map fst]; rewrite R1; reflexivity|]. subst p.
  change (as_packets pid (unit_pieces ((x, b) :: r'))) with ((es_packet pid 1 x, b) :: as_packets pid (later_pieces r')). rewrite R2. reflexivity.
Qed.
Lemma map_app_inv {A B} (f : A -> B) l : forall a b, map f l = a ++ b -> exists l1 l2, l = l1 ++ l2 /\ map f l1 = a /\ map f l2 = b.
Proof.
  induction l as [|x l IH]; intros [|y a] b E; cbn in E.
  - exists [], []. auto. - discriminate E. - exists [], (x :: l). auto.
  - injection E as E1 E2. destruct (IH a b E2) as (l1 & l2 & -> & H1 & H2). exists (x :: l1), l2. split; [reflexivity|]. split; [cbn; congruence|exact H2].
Qed.
Lemma mark_units {A} pid (us : list (list piece * A)) : forall M, map fst M = concat (map (unit_packets pid) (map fst us)) ->
  exists us' : list (marked * A), map (fun x => (map fst (fst x), snd x)) us' = us /\ as_packets pid (concat (map unit_pieces (map fst us'))) = M.
Proof.
  induction us as [|[u a] us IH]; intros M E; [destruct M; [|discriminate E]; exists []; split; reflexivity|].
  cbn [map fst concat] in E. destruct (map_app_inv fst M _ _ E) as (M1 & M2 & -> & E1 & E2). destruct (mark_unit pid u M1 E1) as (u' & U1 & U2). destruct (IH M2 E2) as (us' & V1 & V2).
  exists ((u', a) :: us'). split; [cbn [map fst snd]; rewrite U1, V1; reflexivity|]. cbn [map fst concat]. unfold as_packets in *. rewrite map_app, U2, V2. reflexivity.
Qed.
Lemma mark_all {A} pid lead (us : list (list piece * A)) M : map fst M = map (es_packet pid 0) lead ++ concat (map (unit_packets pid) (map fst us)) ->
  exists lead' (us' : list (marked * A)), map fst lead' = lead /\ map (fun x => (map fst (fst x), snd x)) us' = us /\ as_packets pid (on_air lead' (map fst us')) = M.
Proof.
  intros E. destruct (map_app_inv fst M _ _ E) as (M1 & M2 & -> & E1 & E2). destruct (mark_rest pid lead M1 E1) as (r & R1 & R2). destruct (mark_units pid us M2 E2) as (us' & V1 & V2).
  exists r, us'. split; [exact R1|]. split; [exact V1|]. unfold on_air, as_packets in *. rewrite map_app, R2, V2. reflexivity.
Qed.

(** the packets of a PID *)
Lemma among_own_filter pid own l : among pid own l -> Forall (fun p => mine pid p = true) own -> filter (mine pid) l = own.
Proof.
  induction 1 as [|p own l _ IH|p own l F _ IH]; intros O; [reflexivity| |].
  - inversion O as [|? ? O1 O2]; subst. cbn [filter]. rewrite O1, (IH O2). reflexivity.
  - cbn [filter]. replace (mine pid p) with false; [exact (IH O)|]. destruct F as (_ & _ & [F|F]); unfold mine; [|rewrite F, andb_false_r; reflexivity].
    apply N.eqb_neq in F. rewrite F. reflexivity.
Qed.
Lemma among_filter pid l : Forall (fun p => (4 <= length p)%nat /\ bytes p) l -> among pid (filter (mine pid) l) l.
Proof.
  induction 1 as [|p l [L B] _ IH]; [constructor|]. cbn [filter]. destruct (mine pid p) eqn:E; [constructor; exact IH|]. apply among_foreign; [|exact IH].
  split; [exact L|]. split; [exact B|]. unfold mine in E. apply andb_false_iff in E as [E|E]; [left; apply N.eqb_neq; exact E|right; exact E].
Qed.
Lemma among_bytes pid own l : among pid own l -> Forall bytes own -> Forall bytes l.
Proof. induction 1 as [|p own l _ IH|p own l F _ IH]; intros O; [constructor| |]. - inversion O; subst; constructor; auto. - constructor; [apply F|auto]. Qed.
Lemma own_bytes pid u x : piece_ok x -> bytes (es_packet pid u x).
Proof.
  intros (L & B1 & B2). unfold es_packet. apply Facts.bytes_app. split; [apply Facts.layout_bytes|]. apply Facts.bytes_app. split; [|exact B2].
  destruct (e_af x) as [b|]; [|constructor]. constructor; [|exact B1]. cbn [af_bytes length] in L. lia.
Qed.
Lemma own_mine pid u x : piece_ok x -> pid < 8192 -> u < 2 -> mine pid (es_packet pid u x) = true.
Proof.
  intros K P U. destruct (P_play.own_getters Debug pid u x K P U) as (G1 & G2 & _).
  assert (L : (4 <= length (es_packet pid u x))%nat) by (unfold es_packet; rewrite app_length, P_play.hdr_len; lia).
  destruct (W_ts.header_getters _ L (own_bytes pid u x K)) as (_ & _ & _ & G4 & _ & _ & G7 & _). cbv zeta in *. rewrite G1 in G4. rewrite G2 in G7. injection G4 as G4. injection G7 as G7.
  unfold mine. rewrite <- G4, <- G7, N.eqb_refl. reflexivity.
Qed.
Lemma in_stream_bytes l pks : in_stream l pks -> bytes l -> Forall (fun p => (4 <= length p)%nat /\ bytes p) pks.
Proof.
  induction 1 as [l _|l pk l' pks E L _ IH]; intros B; [constructor|].
  assert (Bs : bytes (to_sync l)) by (clear -B; induction B as [|x l X B IH]; [constructor|]; cbn [to_sync]; destruct (x =? 0x47); [constructor; assumption|exact IH]).
  rewrite E in Bs. apply Facts.bytes_app in Bs as [B1 B2]. constructor; [split; [lia|exact B1]|exact (IH B2)].
Qed.
Lemma units_ok (us : list (list piece * (pes * bool))) (us' : list (marked * (pes * bool))) : map (fun x => (map fst (fst x), snd x)) us' = us ->
  Forall (fun x => pieces_of (fst x) (pes_bytes (fst (snd x)) (snd (snd x)))) us ->
  Forall (fun x => fst x <> [] /\ Forall (fun y => piece_ok (fst y)) (fst x) /\ data (fst x) = pes_bytes (fst (snd x)) (snd (snd x))) us'.
Proof.
  intros <- F. rewrite Forall_map in F. eapply Forall_impl; [|exact F]. intros [u a] (N0 & K & D). cbn [fst snd] in *.
  split; [intros ->; apply N0; reflexivity|]. rewrite Forall_map in K. split; [exact K|]. rewrite <- D. unfold data. rewrite map_map. reflexivity.
Qed.
Lemma found_given pid c lead (us : list (list piece * (pes * bool))) l : pid < 8192 -> c < 16 -> Forall piece_ok lead ->
  Forall (fun x => pieces_of (fst x) (pes_bytes (fst (snd x)) (snd (snd x)))) us ->
  Forall (fun x => pes_ok (fst (snd x)) /\ length_ok (fst (snd x)) (snd (snd x))) us -> counted c (lead ++ concat (map fst us)) ->
  Forall S_damage.is_packet (S_damage.sent_packets l) -> Forall (fun x => bytes (S_damage.noise x)) l ->
  among pid (map (es_packet pid 0) lead ++ concat (map (unit_packets pid) (map fst us))) (S_damage.sent_packets l) ->
  exists ks fs out, S_damage.found true l ks fs out /\
    (Forall (fun x => mine pid x = false) fs -> exists lead' (us' : list (marked * (pes * bool))), map fst lead' = lead /\ map (fun x => (map fst (fst x), snd x)) us' = us /\
      as_packets pid (on_air lead' (map fst us')) = filter (fun x => mine pid (fst x)) (S_damage.marks l ks) /\
      (gaps_show None (on_air lead' (map fst us')) -> forall m n sched buf, P_reader.no_fail sched -> (188 <= length buf)%nat -> (length out <= n)%nat ->
        (' (pks, _) <- read_all n (mkSource (S_damage.came l) sched) buf ;; careful m pid pks) = Ok (map (fun x => Some (holds (fst x))) (given us')))).
Proof.
  intros P C L U O I PK B A.
  assert (OK : Forall (fun p => mine pid p = true /\ bytes p) (map (es_packet pid 0) lead ++ concat (map (unit_packets pid) (map fst us)))).
  { apply Forall_app. split; [apply Forall_map; eapply Forall_impl; [|exact L]; intros x X; split; [apply own_mine; [exact X|exact P|reflexivity]|apply own_bytes; exact X]|].
    clear A I O. induction U as [|[u a] us (_ & K & _) _ IH]; [constructor|]. cbn [map fst concat] in *. apply Forall_app. split; [|exact IH].
    destruct K as [|x r X K]; [constructor|]. cbn [unit_packets]. constructor; [split; [apply own_mine; [exact X|exact P|reflexivity]|apply own_bytes; exact X]|].
    apply Forall_map. eapply Forall_impl; [|exact K]. intros y Y. split; [apply own_mine; [exact Y|exact P|reflexivity]|apply own_bytes; exact Y]. }
  assert (BP : Forall bytes (S_damage.sent_packets l)) by (apply (among_bytes pid _ _ A); eapply Forall_impl; [|exact OK]; intros p X; apply X).
  assert (BC : bytes (S_damage.came l)).
  { clear - B BP. induction B as [|x l B1 _ IH]; [constructor|]. cbn [S_damage.sent_packets flat_map] in BP. rewrite !Forall_app in BP. destruct BP as [[_ BP1] BP2].
    cbn [S_damage.came flat_map]. unfold bytes in *. rewrite !Forall_app. split; [split; [exact B1|]|exact (IH BP2)]. apply Forall_concat. exact BP1. }
  destruct (P_reader.in_stream_total (S_damage.came l)) as [out S].
  destruct (P_damage.found_from l (P_damage.intact_packets l PK) true [] out ltac:(reflexivity) ltac:(cbn; lia) S) as (ks & fs & G). exists ks, fs, out. split; [exact G|]. intros Fs.
  destruct (P_damage.marks_spec _ _ _ _ _ G) as [M1 M2]. pose proof (P_damage.found_filter _ _ _ _ _ (mine pid) G Fs) as M3. rewrite <- M2 in M3.
  set (M := S_damage.marks l ks) in *. assert (E : map fst (filter (fun x => mine pid (fst x)) M) = filter (mine pid) (map fst M)).
  { clear. induction M as [|[p b] M IH]; [reflexivity|]. cbn [filter map fst]. destruct (mine pid p); cbn [map fst]; rewrite IH; reflexivity. }
  rewrite M1, (among_own_filter pid _ _ A) in E by (eapply Forall_impl; [|exact OK]; intros p X; apply X).
  destruct (mark_all pid lead us _ E) as (lead' & us' & E1 & E2 & E3). exists lead', us'. split; [exact E1|]. split; [exact E2|]. split; [exact E3|].
  intros Gs m n sched buf Hs Hb Hn. destruct (P_reader.read_all_spec out (S_damage.came l) (mkSource (S_damage.came l) sched) buf n S eq_refl Hs Hb) as (s' & R & _). rewrite R. cbn [bind].
  rewrite firstn_all2 by exact Hn. apply (P_count.careful_given m pid c lead' us' out P C).
  - rewrite <- E1, Forall_map in L. exact L.
  - exact (units_ok us us' E2 U).
  - rewrite <- E2, Forall_map in O. exact O.
  - apply counted_step. rewrite on_air_pieces, E1, map_map. rewrite <- E2, map_map in I. exact I.
  - exact Gs.
  - rewrite <- as_packets_got, E3. replace (got (filter (fun x => mine pid (fst x)) M)) with (filter (mine pid) (got M)).
    + rewrite <- M3. apply among_filter. exact (in_stream_bytes _ _ S BC).
    + clear. unfold got. induction M as [|[p b] M IH]; [reflexivity|]. destruct b; cbn [filter map fst snd]; destruct (mine pid p); cbn [filter map fst snd]; rewrite ?IH; reflexivity.
Qed.

(** a condition without counting *)
Lemma gaps_from l : forall k, (match k with Some n => (n < 16)%nat | None => True end) ->
  (forall a c, repeat false (match k with Some n => n | None => O end) ++ map snd l <> a ++ repeat false 16 ++ c) -> gaps_show (match k with Some n => Some (N.of_nat n) | None => None end) l.
Proof.
  induction l as [|[[u x] b] l IH]; intros k K H; [exact I|]. destruct b; cbn [gaps_show].
  - split; [destruct k as [n|]; [|exact I]; destruct n as [|n]; [left; reflexivity|right; rewrite N.mod_small; lia]|].
    apply (IH (Some O)); [lia|]. intros a c E. apply (H (repeat false (match k with Some n => n | None => O end) ++ true :: a) c).
    cbn [repeat app] in E. cbn [map snd]. rewrite E, <- app_assoc. reflexivity.
  - destruct k as [n|].
    + replace (Some (N.of_nat n + 1)) with (Some (N.of_nat (S n))) by (f_equal; lia).
      assert (R : repeat false (S n) ++ map snd l = repeat false n ++ map snd ((u, x, false) :: l)) by (change (repeat false (S n)) with (false :: repeat false n); rewrite repeat_cons, <- app_assoc; reflexivity).
      apply (IH (Some (S n))); [|intros a c E; apply (H a c); rewrite <- R; exact E].
      assert (n <> 15%nat); [|lia]. intros ->. apply (H [] (map snd l)). rewrite <- R. reflexivity.
    + apply (IH None); [exact I|]. intros a c E. apply (H (false :: a) c). cbn [repeat app map snd] in *. rewrite E. reflexivity.
Qed.
Lemma few_lost l : (forall a c, map snd l <> a ++ repeat false 16 ++ c) -> gaps_show None l.
Proof. intros H. exact (gaps_from l None I H). Qed.
