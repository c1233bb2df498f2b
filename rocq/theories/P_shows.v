(** Proofs: what viewers see of a broadcast with loss and bit errors. *)
From Verif Require Import Prelude Layout Facts S_ts S_utils S_psi M_ts M_text M_psi M_drive M_recv M_desc S_desc M_tables S_tables
  S_system S_loss P_loss S_noise M_multi S_multi P_multi S_lossy P_lossy S_hits P_hits P_hits2 M_words S_words M_shows S_shows P_words P_words2 P_words3.
From Verif Require P_sys.

(** ** the sections on a PID are those of its tables *)
Lemma matches_run g y cc : matches g y -> counted cc (sent_packets (fst y)) -> is_run g.
Proof.
  intros (E & Ca & F & _) C. assert (T : transmitted [y]) by (constructor; [split; assumption|constructor]).
  assert (C' : counted cc (sent_packets (on_the_way [y]))) by (unfold on_the_way; cbn [map concat]; rewrite app_nil_r; exact C).
  pose proof (sections_runs [y] T cc C') as R. cbn [map] in R. inversion R as [|? ? R1 _]; subst. apply (is_run_fst (enc (fst y))); [|exact R1]. rewrite <- E. apply good_marks_fst.
Qed.
Lemma hits_runs m pid cc xs : pid < 8192 -> cc < 16 -> goes_out m pid cc (marks_of come_marks xs) -> runs (all_hits xs) = each_run xs.
Proof.
  intros Hp Hc O. destruct (deliver_hits pat_add (P_sys.heard1 id_pat 12) pat_reads pat_bit m pid ltac:(assoc) pat_gets Hp xs cc Hc O) as (ys & M & C & _).
  rewrite <- each_run_all. apply runs_spec. pose proof (counted_each ys _ C) as D. clear - M D. induction M as [|g y gs ys H _ IH]; [constructor|]. inversion D as [|? ? [c D1] D2]; subst. constructor; [exact (matches_run g y c H D1)|exact (IH D2)].
Qed.
Lemma mild_all m pid cc xs : pid < 8192 -> cc < 16 -> goes_out m pid cc (marks_of come_marks xs) -> Forall mild (runs (all_hits xs)) -> Forall (fun x => Forall mild (runs (snd x))) xs.
Proof.
  intros Hp Hc O M. rewrite (hits_runs m pid cc xs Hp Hc O) in M. clear - M. unfold each_run in M. induction xs as [|x xs IH]; [constructor|]. cbn [map concat] in M. apply Forall_app in M as [M1 M2]. constructor; auto.
Qed.

(** ** parts *)
Lemma part_all {A} (items : list A) l seen : part items l seen -> incl seen items /\ (whole l -> seen = items) /\ (lost l -> seen = []).
Proof.
  intros (gs & -> & L & ->). split; [|split].
  - intros x J. apply List.in_concat in J as (g & J1 & J2). apply List.in_concat. exists g. split; [exact (keep_in g _ _ J1)|exact J2].
  - intros W. rewrite keep_all; [reflexivity|apply whole_arrive; exact W|rewrite arrive_length; congruence].
  - intros W. rewrite keep_none; [reflexivity|apply lost_arrive; exact W].
Qed.
Lemma part_none {A} l : part (@nil A) l [].
Proof.
  exists (repeat [] (length (runs l))). rewrite repeat_length. split; [|split; [reflexivity|]]; [induction (length (runs l)) as [|n IH]; [reflexivity|exact IH]|].
  rewrite <- arrive_length. induction (arrive l) as [|b bs IH]; [reflexivity|]. cbn [length repeat]. rewrite keep_cons. destruct b; exact IH.
Qed.
Lemma split_concat {A B} (R : A -> B -> Prop) (gs : list (list B)) : forall l, Forall2 R l (concat gs) -> exists ls, l = concat ls /\ Forall2 (Forall2 R) ls gs.
Proof.
  induction gs as [|g gs IH]; intros l F; cbn [concat] in F.
  - inversion F; subst. exists []. split; [reflexivity|constructor].
  - apply Forall2_app_inv_r in F as (l1 & l2 & F1 & F2 & ->). destruct (IH l2 F2) as (ls & -> & F3). exists (l1 :: ls). split; [reflexivity|]. constructor; assumption.
Qed.
Lemma keep_related {A B} (R : A -> B -> Prop) bs : forall ls gs, Forall2 R ls gs -> Forall2 R (keep bs ls) (keep bs gs).
Proof.
  induction bs as [|b bs IH]; intros ls gs F; [constructor|]. destruct F as [|x y ls gs H F]; [constructor|]. rewrite !keep_cons. destruct b; [constructor; [exact H|]|]; apply IH, F.
Qed.
Lemma concat_related {A B} (R : A -> B -> Prop) ls gs : Forall2 (Forall2 R) ls gs -> Forall2 R (concat ls) (concat gs).
Proof. induction 1; cbn [concat]; [constructor|]. apply Forall2_app; assumption. Qed.
(** items that show as [vs], of which some sections come, show as a part of [vs] *)
Lemma seen_part {A B} (f : B -> res A) (vs : list A) gs l : Forall2 (fun v i => f i = Ok v) vs (concat gs) -> length gs = length (runs l) ->
  exists seen, part vs l seen /\ each f (concat (keep (arrive l) gs)) = Ok seen.
Proof.
  intros F L. destruct (split_concat _ gs vs F) as (ls & -> & G). exists (concat (keep (arrive l) ls)). split.
  - exists ls. split; [reflexivity|]. split; [|reflexivity]. rewrite <- L. clear - G. induction G; cbn [length]; congruence.
  - pose proof (concat_related _ _ _ (keep_related _ (arrive l) _ _ G)) as H. clear - H. induction H as [|v i vs is E _ IH]; [reflexivity|]. cbn [each]. rewrite E. cbn [bind]. rewrite IH. reflexivity.
Qed.

(** ** the tables of the shows, as they arrive *)
Definition stands (s : show) (t : table) : Prop :=
  match s with
  | Services _ _ _ l => exists u, t = TSdt u /\ Forall2 (fun v i => (v <- service_view (sdti_descs i) ;; Ok (sdti_pnr i, v)) = Ok v) (map service_seen l) (sdt_items u)
  | Guide table _ _ _ _ l => exists u, t = TEit u /\ Forall2 (fun v i => event_view i = Ok v) (map event_seen l) (eit_items u) /\ eit_table u = table
  | Network _ _ _ name _ => exists u d, t = TNit u /\ nit_descs u = [D40 d] /\ dvb_to_string d = Ok name
  | Other u => t = u
  end.
Lemma map_Forall2 {A B C} (f : A -> C) (h : B -> B) (R : C -> B -> Prop) (Q : A -> B -> Prop) l ys : (forall x y, Q x y -> R (f x) (h y)) -> Forall2 Q l ys -> Forall2 R (map f l) (map h ys).
Proof. intros H. induction 1; constructor; auto. Qed.
Lemma show_stands m s : show_ok s -> exists t t', show_table m s = Ok t /\ sendable t' /\ stands s t' /\ forall pid cc dst, send m t pid cc dst = send m t' pid cc dst.
Proof.
  destruct s as [version tsid onid l|table version pnr tsid onid l|version network cp name items|t]; cbn [show_ok show_table].
  - intros (Hv & Ht & Ho & H). destruct (each_made _ _ _ l (service_made m) H) as (items & E & F). unfold sdt_made. rewrite E. cbn [bind]. eexists.
    exists (TSdt (bare_sdt (mkSdt 0x42 version tsid onid items))). split; [reflexivity|]. split; [|split].
    + split; [|split; [|split]].
      * do 4 (split; [first [assumption|reflexivity]|]). cbn [bare_sdt sdt_items]. apply Forall_map. refine (Forall2_right _ _ _ _ _ F). intros s i Q. apply Q.
      * unfold sdt_fits. cbn [bare_sdt sdt_items]. apply Forall_map. refine (Forall2_right _ _ _ _ _ F). intros s i Q. apply Q.
      * cbn [bare_sdt sdt_items]. apply Forall_map. refine (Forall2_right _ _ _ _ _ F). intros s i Q. apply Q.
      * left. reflexivity.
    + eexists. split; [reflexivity|]. cbn [bare_sdt sdt_items]. refine (map_Forall2 _ _ _ _ _ _ _ F). intros s i Q. apply Q.
    + intros pid cc dst. cbn [send]. symmetry. apply bare_sdt_out.
  - intros (Hv & Hn & Ht & Ho & H & T). destruct (each_made _ _ _ l (event_made m) H) as (items & E & F).
    assert (Len : length items = length l) by (clear - F; induction F; cbn; congruence).
    unfold eit_made. rewrite E. cbn [bind]. eexists. exists (TEit (bare_eit (mkEit table version pnr tsid onid items))). split; [reflexivity|].
    assert (K : eit_ok (bare_eit (mkEit table version pnr tsid onid items)) /\ eit_fits (N.to_nat 4098) (bare_eit (mkEit table version pnr tsid onid items)) /\ exact_items eiti_descs (eit_items (bare_eit (mkEit table version pnr tsid onid items)))).
    { split; [|split].
      - split; [change (table < 2 ^ 8); destruct T as [[T _]|[T _]]; [destruct T as [-> | ->]; reflexivity|change (2 ^ 8) with 256; lia]|]. do 4 (split; [assumption|]). cbn [bare_eit eit_items]. apply Forall_map. refine (Forall2_right _ _ _ _ _ F). intros s i Q. apply Q.
      - unfold eit_fits. cbn [bare_eit eit_items]. apply Forall_map. refine (Forall2_right _ _ _ _ _ F). intros s i Q. apply Q.
      - cbn [bare_eit eit_items]. apply Forall_map. refine (Forall2_right _ _ _ _ _ F). intros s i Q. apply Q. }
    destruct K as (K1 & K2 & K3). split; [|split].
    + cbn [sendable]. destruct T as [[T L]|[T L]]; [left|right]; (split; [exact K1|]; split; [exact K2|]; split; [exact K3|]; split; [exact T|]; cbn [bare_eit eit_items]; rewrite map_length, Len; lia).
    + eexists. split; [reflexivity|]. split; [|reflexivity]. cbn [bare_eit eit_items]. refine (map_Forall2 _ _ _ _ _ _ _ F). intros s i Q. apply Q.
    + intros pid cc dst. cbn [send]. symmetry. apply bare_eit_out.
  - intros (Hv & Hn & [W S0] & L & H1 & H2 & H3). destruct (label m cp name W) as (t & E1 & E2 & _ & E3 & _ & E4 & E5).
    unfold nit_made. rewrite E1. cbn [bind]. eexists. exists (TNit (bare_nit (mkNit 0x40 version network [D40 t] items))). split; [reflexivity|].
    assert (Wl : length (wire [D40 (bare t)]) = (2 + length (text t))%nat) by (unfold wire, loop_of; cbn [map flat_map fst snd S_desc.body]; rewrite app_nil_r, bare_text; reflexivity).
    assert (WL : (length (wire [D40 (bare t)]) < N.to_nat 258)%nat) by lia. split; [|split].
    + split; [|split; [|split; [|split]]].
      * do 3 (split; [first [assumption|reflexivity]|]). split; [|exact H1]. cbn [bare_nit nit_descs bares map bare_desc]. split; [|lia]. constructor; [|constructor].
        split; [apply bare_ok; exact E2|]. split; [|exact I]. cbn [S_desc.body]. rewrite bare_text. lia.
      * split; [|exact H3]. cbn [bare_nit nit_descs bares map bare_desc]. lia.
      * constructor; [|constructor]. exact (E4 S0).
      * exact H2.
      * left. reflexivity.
    + eexists. exists (bare t). split; [reflexivity|]. split; [reflexivity|]. rewrite bare_string. exact E3.
    + intros pid cc dst. cbn [send]. symmetry. apply bare_nit_out.
  - intros [H _]. exists t, t. split; [reflexivity|]. split; [exact H|]. split; reflexivity.
Qed.
(** so the broadcast is a multiplex of such tables *)
Definition same_job (m : mode) (j : N * show) (j' : N * table) : Prop :=
  fst j = fst j' /\ show_ok (snd j) /\ stands (snd j) (snd j') /\ exists t, show_table m (snd j) = Ok t /\ forall pid cc dst, send m t pid cc dst = send m (snd j') pid cc dst.
Lemma broadcast_multiplex m jobs : shows_ok jobs -> exists jobs', jobs_ok jobs' /\ Forall2 (same_job m) jobs jobs' /\ forall c dst, broadcast m jobs c dst = multiplex m jobs' c dst.
Proof.
  induction 1 as [|[pid s] jobs [Hp Hs] _ (jobs' & J & F & E)]; [exists []; split; [constructor|]; split; [constructor|]; reflexivity|]. cbn [fst snd] in *.
  destruct (show_stands m s Hs) as (t & t' & T & S & St & Se). exists ((pid, t') :: jobs'). split; [constructor; [split; assumption|exact J]|]. split.
  - constructor; [|exact F]. split; [reflexivity|]. split; [exact Hs|]. split; [exact St|]. exists t. auto.
  - intros c dst. cbn [broadcast multiplex]. rewrite T. cbn [bind]. rewrite Se. destruct (send m t' pid (c pid) dst) as [[cc dst']| |]; cbn [bind]; [apply E|reflexivity|reflexivity].
Qed.
Definition same_show (m : mode) (s : show) (t' : table) : Prop :=
  show_ok s /\ stands s t' /\ exists t, show_table m s = Ok t /\ forall pid cc dst, send m t pid cc dst = send m t' pid cc dst.
Lemma shows_tables m pid jobs jobs' : Forall2 (same_job m) jobs jobs' -> Forall2 (same_show m) (shows_on pid jobs) (tables_on pid jobs').
Proof.
  unfold shows_on, tables_on. induction 1 as [|j j' jobs jobs' (E & H) _ IH]; [constructor|]. cbn [filter]. rewrite E. destruct (fst j' =? pid); [|exact IH]. cbn [map]. constructor; [exact H|exact IH].
Qed.
Lemma shows_journey m pid ss : forall xs cc, Forall2 (same_show m) ss (map fst xs) -> goes_out m pid cc (marks_of come_marks xs) ->
  exists ys, map fst ys = ss /\ map snd ys = map snd xs /\ on_air m pid cc ys /\ Forall2 (fun y x => show_ok (fst y) /\ stands (fst y) (fst x) /\ snd y = snd x) ys xs.
Proof.
  induction ss as [|s ss IH]; intros [|[t' l] xs] cc F O; inversion F as [|? ? ? ? (H1 & H2 & t & H3 & H4) F']; subst; [exists []; repeat split; constructor|].
  cbn [marks_of map goes_out fst snd] in *. destruct O as (_ & _ & cc' & E & O). destruct (IH xs cc' F' O) as (ys & Y1 & Y2 & Y3 & Y4). exists ((s, l) :: ys). cbn [map fst snd].
  split; [congruence|]. split; [congruence|]. split; [|constructor; [cbn [fst snd]; auto|exact Y4]].
  cbn [on_air]. exists t, cc'. split; [exact H3|]. split; [rewrite H4, E, come_marks_fst; reflexivity|exact Y3].
Qed.

(** ** what is seen *)
Lemma each_app_all {A B} (f : A -> res B) l r x y : each f l = Ok x -> each f r = Ok y -> each f (l ++ r) = Ok (x ++ y).
Proof. apply each_app. Qed.
Section Seen.
Context {I V T : Type} (items : T -> list I) (f : I -> res V) (add : T -> T -> T) (bit : table -> list (list N * bool) -> option T -> Prop) (of : show -> list V).
Hypothesis add_items : forall a b, items (add a b) = items a ++ items b.
Hypothesis one : forall s t l o, show_ok s -> stands s t -> bit t l o -> exists seen, part (of s) l seen /\ each f (match o with Some u => items u | None => [] end) = Ok seen.
Lemma seen_all ys : forall xs ps, Forall2 (fun y x => show_ok (fst y) /\ stands (fst y) (fst x) /\ snd y = snd x) ys xs ->
  Forall2 (fun x o => bit (fst x) (good (snd x)) o) xs ps ->
  exists vs, Forall2 (fun y v => part (of (fst y)) (good (snd y)) v) ys vs /\
    forall old w, each f (items old) = Ok w -> each f (items (fold_left add (somes ps) old)) = Ok (w ++ concat vs).
Proof.
  induction ys as [|y ys IH]; intros xs ps F G; inversion F as [|? ? ? ? (H1 & H2 & H3) F']; subst; inversion G as [|? ? ? ? B G']; subst.
  - exists []. split; [constructor|]. intros old w E. cbn [somes flat_map fold_left concat]. rewrite app_nil_r. exact E.
  - destruct (IH _ _ F' G') as (vs & V1 & V2). destruct (one _ _ _ _ H1 H2 B) as (seen & P & E). exists (seen :: vs). split; [constructor; [rewrite H3; exact P|exact V1]|].
    intros old w W. cbn [concat]. rewrite app_assoc. match goal with |- context [somes (?o :: ?l)] => change (somes (o :: l)) with (match o with Some t => [t] | None => [] end ++ somes l); destruct o as [u|] end.
    + cbn [app fold_left]. apply V2. rewrite add_items. apply each_app; assumption.
    + cbn [app]. apply V2. cbn [each] in E. injection E as <-. rewrite app_nil_r. exact W.
Qed.
End Seen.
Lemma sections_seen {I V T} (items : T -> list I) (f : I -> res V) (its : list I) (vs : list V) l o (mk : list I -> T -> Prop) : (forall k u, mk k u -> items u = k) ->
  sections its l o mk -> Forall2 (fun v i => f i = Ok v) vs its -> exists seen, part vs l seen /\ each f (match o with Some u => items u | None => [] end) = Ok seen.
Proof.
  intros M (gs & -> & L & _ & K) F. destruct (seen_part f vs gs l F L) as (seen & P & E). exists seen. split; [exact P|]. destruct (keep (arrive l) gs) as [|k ks]; [rewrite K; exact E|].
  destruct K as (u & -> & K). rewrite (M _ _ K). exact E.
Qed.
Definition service_of (i : sdt_item) := v <- service_view (sdti_descs i) ;; Ok (sdti_pnr i, v).
Lemma service_one s t l o : show_ok s -> stands s t -> sdt_bit t l o -> exists seen, part (services_of s) l seen /\ each service_of (match o with Some u => sdt_items u | None => [] end) = Ok seen.
Proof.
  intros Ok S B. destruct s as [version tsid onid ls|table version pnr tsid onid ls|version network cp name items|t0]; cbn [stands services_of] in *.
  - destruct S as (u & -> & F). cbn [sdt_bit] in B. refine (sections_seen sdt_items service_of _ _ _ _ _ _ B F). intros k v ->. reflexivity.
  - destruct S as (u & -> & _). cbn [sdt_bit] in B. subst o. exists []. split; [apply part_none|reflexivity].
  - destruct S as (u & d & -> & _). cbn [sdt_bit] in B. subst o. exists []. split; [apply part_none|reflexivity].
  - subst t0. destruct Ok as [_ Ok]. destruct t; try contradiction; cbn [sdt_bit] in B; subst o; exists []; (split; [apply part_none|reflexivity]).
Qed.
Lemma event_one s t l o : show_ok s -> stands s t -> eit_bit t l o -> exists seen, part (events_of s) l seen /\ each event_view (match o with Some u => eit_items u | None => [] end) = Ok seen.
Proof.
  intros Ok S B. destruct s as [version tsid onid ls|table version pnr tsid onid ls|version network cp name items|t0]; cbn [stands events_of] in *.
  - destruct S as (u & -> & _). cbn [eit_bit] in B. subst o. exists []. split; [apply part_none|reflexivity].
  - destruct S as (u & -> & F & _). cbn [eit_bit] in B. refine (sections_seen eit_items event_view _ _ _ _ _ _ B F). intros k v (tb & _ & ->). reflexivity.
  - destruct S as (u & d & -> & _). cbn [eit_bit] in B. subst o. exists []. split; [apply part_none|reflexivity].
  - subst t0. destruct Ok as [_ Ok]. destruct t; try contradiction; cbn [eit_bit] in B; subst o; exists []; (split; [apply part_none|reflexivity]).
Qed.
(** names *)
Definition or_else {A} (a b : option A) : option A := match a with Some _ => a | None => b end.
Lemma name_app ds es a : name_view ds = Ok a -> (a = None -> forall b, name_view es = Ok b -> name_view (ds ++ es) = Ok b) /\ (a <> None -> name_view (ds ++ es) = Ok a).
Proof.
  induction ds as [|d ds IH]; intros E; cbn [name_view app] in *; [injection E as <-; split; [auto|congruence]|]. destruct d; try exact (IH E).
  destruct (dvb_to_string _) as [n| |]; cbn [bind] in *; try discriminate. injection E as <-. split; [discriminate|reflexivity].
Qed.
Lemma name_one s t l o : show_ok s -> stands s t -> nit_bit t l o -> name_view (match o with Some u => nit_descs u | None => [] end) = Ok (name_part s l).
Proof.
  intros Ok S B. unfold name_part. destruct s as [version tsid onid ls|table version pnr tsid onid ls|version network cp name items|t0]; cbn [stands name_of] in *.
  - destruct S as (u & -> & _). cbn [nit_bit] in B. subst o. destruct (hd false (arrive l)); reflexivity.
  - destruct S as (u & -> & _). cbn [nit_bit] in B. subst o. destruct (hd false (arrive l)); reflexivity.
  - destruct S as (u & d & -> & D & E). cbn [nit_bit] in B. destruct B as (gs & _ & L & L1 & K). destruct (keep (arrive l) gs) as [|k ks] eqn:Ek.
    + subst o. rewrite <- arrive_length in L. destruct (arrive l) as [|b bs]; [reflexivity|]. cbn [hd]. destruct gs as [|g gs]; [discriminate|]. rewrite keep_cons in Ek. destruct b; [discriminate|reflexivity].
    + destruct K as (v & -> & ->). cbn [nit_descs]. unfold first_descs. destruct (hd false (arrive l)); [|reflexivity]. rewrite D. cbn [name_view]. rewrite E. reflexivity.
  - subst t0. destruct Ok as [_ Ok]. destruct t; try contradiction; cbn [nit_bit] in B; subst o; destruct (hd false (arrive l)); reflexivity.
Qed.
Lemma names_all ys : forall xs ps, Forall2 (fun y x => show_ok (fst y) /\ stands (fst y) (fst x) /\ snd y = snd x) ys xs ->
  Forall2 (fun x o => nit_bit (fst x) (good (snd x)) o) xs ps ->
  forall old w, name_view (nit_descs old) = Ok w -> name_view (nit_descs (fold_left nit_add (somes ps) old)) = Ok (or_else w (hd_error (somes (map (fun y => name_part (fst y) (good (snd y))) ys)))).
Proof.
  induction ys as [|y ys IH]; intros xs ps F G old w W; inversion F as [|? x ? xs' (H1 & H2 & H3) F']; subst; inversion G as [|? o ? ps' B G']; subst.
  - destruct w; exact W.
  - pose proof (name_one _ _ _ _ H1 H2 B) as E. rewrite <- H3 in E. cbn [map]. set (n := name_part (fst y) (good (snd y))) in *.
    change (somes (o :: ps')) with (match o with Some t => [t] | None => [] end ++ somes ps').
    change (somes (n :: ?l)) with (match n with Some t => [t] | None => [] end ++ somes l).
    assert (X : exists old', fold_left nit_add (match o with Some t => [t] | None => [] end ++ somes ps') old = fold_left nit_add (somes ps') old' /\ name_view (nit_descs old') = Ok (or_else w n)).
    { destruct o as [u|]; cbn [app fold_left].
      - exists (nit_add old u). split; [reflexivity|]. cbn [nit_add nit_descs]. destruct (name_app _ (nit_descs u) w W) as [A1 A2]. destruct w as [w|]; [apply A2; discriminate|apply (A1 eq_refl); exact E].
      - exists old. split; [reflexivity|]. cbn [name_view] in E. injection E as <-. destruct w; exact W. }
    destruct X as (old' & -> & X). rewrite (IH _ _ F' G' old' _ X). f_equal. destruct w as [w|], n as [n0|]; reflexivity.
Qed.

(** ** a broadcast on the air *)
Definition aired (m : mode) (jobs : list (N * show)) (c : N -> N) (dst : list N) (c' : N -> N) (mk : list hit) : Prop :=
  shows_ok jobs /\ (forall p, c p < 16) /\ broadcast m jobs c dst = Ok (c', dst ++ concat (map fst mk)) /\ Forall (fun x => length (fst x) = 188%nat) mk /\ Forall same_pid mk.
Definition hits_on (pid : N) (mk : list hit) : list hit := filter (fun x => on pid (fst x)) mk.
Lemma aired_journey m jobs c dst c' mk pid : aired m jobs c dst c' mk -> pid < 8192 -> Forall mild (runs (hits_on pid mk)) ->
  exists ys xs, map fst ys = shows_on pid jobs /\ concat (map snd ys) = hits_on pid mk /\ on_air m pid (c pid) ys /\
    Forall2 (fun y x => show_ok (fst y) /\ stands (fst y) (fst x) /\ snd y = snd x) ys xs /\
    goes_out m pid (c pid) (marks_of come_marks xs) /\ Forall (fun x => Forall mild (runs (snd x))) xs /\ all_hits xs = hits_on pid mk /\ filter (on pid) (come mk) = come (all_hits xs).
Proof.
  intros (J & C & E & L & Sp) Hp M. destruct (broadcast_multiplex m jobs J) as (jobs' & J' & F & B). rewrite B in E.
  assert (O : is_out m jobs' c dst c' (map fst mk)). { split; [exact J'|]. split; [exact C|]. split; [exact E|]. apply Forall_map. exact L. }
  destruct (multi_hits m jobs' c dst c' mk pid O Sp) as (_ & _ & xs & X1 & X2 & X3 & X4).
  destruct (shows_journey m pid (shows_on pid jobs) xs (c pid)) as (ys & Y1 & Y2 & Y3 & Y4); [rewrite X1; apply shows_tables; exact F|exact X3|].
  exists ys, xs. split; [exact Y1|]. split; [rewrite Y2; exact X2|]. split; [exact Y3|]. split; [exact Y4|]. split; [exact X3|]. split; [|split; assumption].
  apply (mild_all m pid (c pid)); [exact Hp|apply C|exact X3|]. rewrite X2. exact M.
Qed.
Lemma aired_done m jobs c dst : shows_ok jobs -> (forall p, c p < 16) ->
  (m = Debug -> Forall (fun j => match snd j with Guide table _ _ _ _ _ => table < 0x50 | _ => True end) jobs) -> exists r, broadcast m jobs c dst = Ok r.
Proof.
  intros J C Z. destruct (broadcast_multiplex m jobs J) as (jobs' & J' & F & B). rewrite B. apply multi_done; [exact J'| |exact C]. intros D. specialize (Z D). clear - F Z.
  induction F as [|j j' jobs jobs' (_ & H & S & _) _ IH]; [constructor|]. inversion Z as [|? ? Z1 Z2]; subst. constructor; [|exact (IH Z2)]. destruct (snd j) as [version tsid onid ls|table version pnr tsid onid ls|version network cp name items|t0]; cbn [stands] in S.
  - destruct S as (u & -> & _). exact I.
  - destruct S as (u & -> & _ & <-). lia.
  - destruct S as (u & d & -> & _). exact I.
  - rewrite S. destruct H as [_ H]. destruct t0; try exact I. contradiction.
Qed.
Lemma stream_of m jobs c dst c' mk : aired m jobs c dst c' mk -> S_reader.in_stream (concat (come mk)) (come mk) /\ bytes (concat (come mk)).
Proof.
  intros (J & C & E & L & Sp). destruct (broadcast_multiplex m jobs J) as (jobs' & J' & F & B). rewrite B in E.
  assert (O : is_out m jobs' c dst c' (map fst mk)). { split; [exact J'|]. split; [exact C|]. split; [exact E|]. apply Forall_map. exact L. }
  destruct (multi_hits m jobs' c dst c' mk 0 O Sp) as (X & Y & _). auto.
Qed.
(** a check of [same_pid] *)
Definition same_check (x : hit) : bool :=
  match snd x with Some y => (length y =? 188)%nat && forallb (fun b => b <? 256) y && (field y 0 8 =? 0x47) && (field y 11 13 =? field (fst x) 11 13) | None => true end.
Lemma same_checked l : forallb same_check l = true -> Forall same_pid l.
Proof.
  intros H. apply Forall_forall. intros x J. rewrite forallb_forall in H. specialize (H x J). unfold same_check in H. unfold same_pid. destruct (snd x) as [y|]; [|exact I].
  apply andb_true_iff in H as [H H4]. apply andb_true_iff in H as [H H3]. apply andb_true_iff in H as [H1 H2]. apply Nat.eqb_eq in H1. apply N.eqb_eq in H3, H4.
  split; [exact H1|]. split; [|split; assumption]. apply Forall_forall. intros b Jb. rewrite forallb_forall in H2. apply N.ltb_lt. exact (H2 b Jb).
Qed.
