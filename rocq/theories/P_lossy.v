(** Proofs: tables sent on one PID of which packets are lost. *)
From Coq Require Import ZifyBool.
From Verif Require Import Prelude Layout Facts Facts2 S_ts S_crc S_utils S_psi M_ts M_psi M_drive M_recv M_desc S_desc M_tables S_tables
  M_reader S_reader M_system S_system P_ts W_ts P_psi P_mux P_mux2 P_sys2 P_eit P_eit2 P_eit3 P_eit5 P_reader P_sys P_tab P_tab2 P_tab3 P_tab4 P_tab5 P_tot P_sect P_mux3 P_desc W_tables W_eit W_sys
  S_loss P_packed P_loss M_multi S_multi P_multi S_lossy.
From Verif Require P_guide P_distinct P_tell P_desc2.

(** ** marks on packets and on their bytes *)
Definition enc (y : marked) : list (list N * bool) := map (fun x => (encode (fst x), snd x)) y.
Lemma enc_app a b : enc (a ++ b) = enc a ++ enc b.
Proof. apply map_app. Qed.
Lemma unenc : forall ks l, map fst l = map encode ks -> exists y, sent_packets y = ks /\ enc y = l.
Proof.
  induction ks as [|k ks IH]; intros [|[x b] l] E; try discriminate.
  - exists []. split; reflexivity.
  - cbn [map fst] in E. injection E as -> E. destruct (IH l E) as (y & <- & <-). exists ((k, b) :: y). split; reflexivity.
Qed.
Lemma flag_pusi k : flag (encode k) 9 = k_pusi k.
Proof. unfold flag, encode. rewrite f_pusi. destruct (k_pusi k); reflexivity. Qed.
Lemma shows_gaps : forall y s, shows s (enc y) -> gaps_show s y.
Proof.
  induction y as [|[k b] y IH]; intros s H; [exact I|]. cbn [enc map fst snd] in H. fold (enc y) in H. cbn [shows gaps_show] in *. destruct b; [|apply IH; exact H].
  rewrite flag_pusi in H. destruct (k_pusi k); [apply IH; exact H|]. destruct s; [exact H|apply IH; exact H|]. destruct H as [H1 H2]. split; [exact H1|apply IH; exact H2].
Qed.
Lemma got_arrived y : got (enc y) = map encode (arrived y).
Proof. unfold got, arrived, enc. induction y as [|[k b] y IH]; [reflexivity|]. cbn [map fst snd filter]. destruct b; cbn [map fst]; rewrite ?IH; reflexivity. Qed.
Lemma whole_all y : whole (enc y) <-> forallb snd y = true.
Proof.
  unfold whole, enc. induction y as [|[k b] y IH]; [split; [reflexivity|constructor]|]. cbn [map fst snd forallb]. rewrite Forall_cons_iff, IH, andb_true_iff. reflexivity.
Qed.

(** the sections of a table, with their packets *)
Definition own_length (x : marked * list N) : Prop := length (sent_packets (fst x)) = S (length (snd x) / 184).
Lemma stream_marks pid ss : Forall framed ss -> forall cc l, cc < 16 -> map fst l = stream pid cc ss ->
  exists xs, transmitted xs /\ map snd xs = ss /\ enc (on_the_way xs) = l /\ counted ((cc + 15) mod 16) (sent_packets (on_the_way xs)) /\
    last (map k_cc (sent_packets (on_the_way xs))) ((cc + 15) mod 16) = (next_cc pid cc ss + 15) mod 16 /\ Forall own_length xs.
Proof.
  induction 1 as [|s ss F _ IH]; intros cc l Hc E.
  - destruct l; [|discriminate]. exists []. split; [constructor|]. do 2 (split; [reflexivity|]). split; [exact I|]. cbn [on_the_way map concat sent_packets last].
    split; [|constructor]. unfold next_cc, stream. cbn [length]. clear - Hc. dlia.
  - rewrite stream_cons in E. destruct (section_carried pid cc s F Hc) as (ks & Es & Ca & Lk & ps & Ep).
    set (n := length (section_packets pid cc s)) in *. set (cc' := (cc + N.of_nat n) mod 16) in *.
    assert (L : map fst (firstn n l) = section_packets pid cc s).
    { rewrite <- firstn_map, E. unfold n. rewrite firstn_app, Nat.sub_diag, firstn_all, firstn_O, app_nil_r. reflexivity. }
    assert (R : map fst (skipn n l) = stream pid cc' ss).
    { rewrite <- skipn_map, E. unfold n. rewrite skipn_app, Nat.sub_diag, skipn_all. reflexivity. }
    destruct (unenc ks (firstn n l)) as (y & Y1 & Y2); [congruence|].
    destruct (IH cc' (skipn n l) ltac:(apply N.mod_lt; discriminate) R) as (xs & X1 & X2 & X3 & X4 & X5 & X6).
    assert (N0 : n = length ps) by (unfold n; rewrite Es, map_length, Ep; apply number_k_length).
    assert (LK : last (map k_cc (sent_packets y)) ((cc + 15) mod 16) = (cc' + 15) mod 16).
    { rewrite Y1, Ep, number_last by exact Hc. rewrite <- N0. unfold cc'. clear. dlia. }
    exists ((y, s) :: xs). split; [constructor; [split; [cbn [fst snd]; rewrite Y1; exact Ca|exact F]|exact X1]|].
    split; [cbn [map snd]; rewrite X2; reflexivity|]. unfold on_the_way in *. cbn [map fst concat].
    split; [rewrite enc_app, Y2, X3; apply firstn_skipn|]. rewrite sent_app. split; [|split; [|constructor; [unfold own_length; cbn [fst snd]; rewrite Y1; exact Lk|exact X6]]].
    + apply counted_app. split; [rewrite Y1, Ep; apply number_counted; exact Hc|rewrite LK; exact X4].
    + rewrite map_app. assert (LA : forall (a b : list N) d, last (a ++ b) d = last b (last a d)).
      { clear. induction a as [|x a IHa]; intros b d; [reflexivity|]. cbn [app]. rewrite !last_cons. apply IHa. }
      rewrite LA, LK, X5. unfold next_cc. rewrite stream_cons, app_length. fold n cc'. clear. unfold cc'. dlia.
Qed.

(** ** some of the sections of a table *)
Definition merge {T} (add : T -> T -> T) (us : list T) : option T := match us with [] => None | u :: r => Some (fold_left add r u) end.
Lemma merge_fold {T} (add : T -> T -> T) : (forall a b c, add (add a b) c = add a (add b c)) -> forall us old,
  fold_left add us old = fold_left add (somes [merge add us]) old.
Proof.
  intros A us old. destruct us as [|u us]; [reflexivity|]. cbn [merge somes flat_map app fold_left]. revert u. induction us as [|v us IH]; intros u; [reflexivity|].
  cbn [fold_left]. rewrite A. apply IH.
Qed.

Lemma keep_cons {A} b bs (x : A) l : keep (b :: bs) (x :: l) = if b then x :: keep bs l else keep bs l.
Proof. unfold keep. cbn [combine filter fst]. destruct b; reflexivity. Qed.
Lemma keep_map {A B} (h : A -> B) : forall bs l, keep bs (map h l) = map h (keep bs l).
Proof. induction bs as [|b bs IH]; intros [|x l]; try reflexivity. cbn [map]. rewrite !keep_cons. destruct b; cbn [map]; rewrite IH; reflexivity. Qed.
Lemma keep_in {A} (x : A) : forall bs l, In x (keep bs l) -> In x l.
Proof. induction bs as [|b bs IH]; intros [|y l] I; try contradiction. rewrite keep_cons in I. destruct b; [destruct I as [->|I]; [left; reflexivity|]|]; right; apply IH, I. Qed.
Lemma keep_all {A} : forall bs (l : list A), forallb id bs = true -> length bs = length l -> keep bs l = l.
Proof.
  induction bs as [|b bs IH]; intros [|x l] F L; try discriminate; [reflexivity|]. cbn [forallb] in F. apply andb_true_iff in F as [F1 F2]. rewrite keep_cons. unfold id in F1. rewrite F1.
  f_equal. apply IH; [exact F2|]. cbn [length] in L. lia.
Qed.
Lemma keep_none {A} : forall bs (l : list A), forallb negb bs = true -> keep bs l = [].
Proof. induction bs as [|b bs IH]; intros [|x l] F; try reflexivity. cbn [forallb] in F. apply andb_true_iff in F as [F1 F2]. rewrite keep_cons. destruct b; [discriminate|]. apply IH, F2. Qed.

(** the runs of packets *)
Definition is_run {A} (y : list (list N * A)) : Prop := exists x r, y = x :: r /\ flag (fst x) 9 = true /\ Forall (fun z => flag (fst z) 9 = false) r.
Lemma runs_app {A} (r : list (list N * A)) : Forall (fun z => flag (fst z) 9 = false) r -> forall x l, (runs l = [] \/ exists y g gs, runs l = (y :: g) :: gs /\ flag (fst y) 9 = true) -> runs (x :: r ++ l) = (x :: r) :: runs l.
Proof.
  induction 1 as [|z r Fz _ IH]; intros x l L.
  - cbn [app runs]. destruct L as [->|(y & g & gs & -> & Fy)]; [reflexivity|]. rewrite Fy. reflexivity.
  - specialize (IH z l L). cbn [app]. set (q := z :: r ++ l) in *. cbn [runs]. rewrite IH, Fz. reflexivity.
Qed.
Lemma runs_spec {A} (ys : list (list (list N * A))) : Forall is_run ys -> runs (concat ys) = ys.
Proof.
  induction 1 as [|y ys (x & r & -> & Fx & Fr) H IH]; [reflexivity|]. cbn [concat]. change ((x :: r) ++ concat ys) with (x :: r ++ concat ys).
  rewrite runs_app, IH; [reflexivity|exact Fr|]. rewrite IH. destruct H as [|y' ys (x' & r' & -> & Fx' & _) H]; [left; reflexivity|]. right. exists x', r', ys. auto.
Qed.
Lemma sections_runs xs : transmitted xs -> forall cc, counted cc (sent_packets (on_the_way xs)) -> Forall is_run (map (fun x => enc (fst x)) xs).
Proof.
  intros Tr. induction Tr as [|[y s] xs [Ca _] _ IH]; intros cc C; [constructor|]. unfold on_the_way in C. cbn [map fst concat] in *. fold (on_the_way xs) in C.
  rewrite sent_app in C. apply counted_app in C as [C1 C2]. constructor; [|exact (IH _ C2)]. destruct Ca as (k & ks & c & st & E & Hk & Hpl & Hpu & _ & Hc & _). cbn [fst snd] in *.
  destruct y as [|[k0 b] y]; [discriminate|]. cbn [sent_packets map fst] in E, C1. injection E as -> E. fold (sent_packets y) in *. destruct C1 as (_ & _ & C1). rewrite <- E in Hc.
  pose proof (continues_all _ _ C1 Hc) as O. exists (encode k, b), (enc y). split; [reflexivity|]. cbn [fst]. split; [rewrite flag_pusi; exact Hpu|]. clear - O.
  unfold enc, sent_packets in *. induction y as [|[k b] y IH]; [constructor|]. cbn [map fst snd] in *. inversion O as [|? ? [_ O1] O2]; subst. constructor; [cbn [fst]; rewrite flag_pusi; exact O1|apply IH, O2].
Qed.
Lemma enc_sections xs : enc (on_the_way xs) = concat (map (fun x => enc (fst x)) xs).
Proof. unfold on_the_way. induction xs as [|x xs IH]; [reflexivity|]. cbn [map concat]. rewrite enc_app, IH. reflexivity. Qed.
Lemma runs_sections xs : transmitted xs -> forall cc, counted cc (sent_packets (on_the_way xs)) -> runs (enc (on_the_way xs)) = map (fun x => enc (fst x)) xs.
Proof. intros Tr cc C. rewrite enc_sections. apply runs_spec. exact (sections_runs xs Tr cc C). Qed.
Lemma arrive_sections xs : transmitted xs -> forall cc, counted cc (sent_packets (on_the_way xs)) -> arrive (enc (on_the_way xs)) = map (fun x => forallb snd (fst x)) xs.
Proof.
  intros Tr cc C. unfold arrive. rewrite (runs_sections xs Tr cc C), map_map. apply map_ext. intros [y s]. cbn [fst]. unfold enc. clear. induction y as [|[k b] y IH]; [reflexivity|]. cbn [map forallb snd]. rewrite IH. reflexivity.
Qed.
Lemma chosen {T} (f : list N -> bool) (rd : list N -> T -> Prop) : forall xs ts, Forall2 (fun s u => f s = true /\ rd s u) (map snd xs) ts ->
  Forall2 rd (filter f (intact xs)) (keep (map (fun x => forallb snd (fst x)) xs) ts).
Proof.
  induction xs as [|[y s] xs IH]; intros ts R; cbn [map snd] in R; inversion R as [|? u ? ts' [F D] R']; subst; [constructor|].
  cbn [map fst]. rewrite keep_cons. unfold intact. cbn [filter fst]. destruct (forallb snd y); [cbn [map snd filter]; rewrite F; constructor; [exact D|]|]; apply IH, R'.
Qed.
Lemma unheard {T} (f : list N -> bool) (rd : list N -> T -> Prop) xs : Forall (fun s => f s = false) (map snd xs) -> Forall2 rd (filter f (intact xs)) [].
Proof.
  intros F. replace (filter f (intact xs)) with (@nil (list N)); [constructor|]. unfold intact. induction xs as [|[y s] xs IH]; [reflexivity|].
  cbn [map snd] in F. inversion F as [|? ? F1 F2]; subst. cbn [filter fst snd]. destruct (forallb snd y); [cbn [map snd filter]; rewrite F1|]; apply IH; exact F2.
Qed.
Lemma quiet_ids (ids : N -> bool) min ss : Forall (fun s => ids (field s 0 8) = false) ss -> Forall (fun s => heard1 ids min s = false) ss.
Proof. apply Forall_impl. intros s H. unfold heard1. rewrite H, andb_false_r. reflexivity. Qed.
Lemma heard_ok ids min s : section_ok s -> (min <= length s)%nat -> ids (field s 0 8) = true -> heard1 ids min s = true.
Proof. intros (_ & _ & _ & C) L I. unfold heard1. rewrite I, C, N.eqb_refl, andb_true_r. apply Nat.leb_le in L. rewrite L. reflexivity. Qed.

(** ** the sections of each kind of table and what each of them says *)
Definition says {T} (f : list N -> bool) (rd : list N -> T -> Prop) (ss : list (list N)) (ts : list T) : Prop := Forall2 (fun s u => f s = true /\ rd s u) ss ts.
Definition got_own {T} (add : T -> T -> T) (f : list N -> bool) (rd : list N -> T -> Prop) (bit : list (list N * bool) -> option T -> Prop) (ss : list (list N)) : Prop :=
  forall xs cc, transmitted xs -> map snd xs = ss -> counted cc (sent_packets (on_the_way xs)) -> exists us, Forall2 rd (filter f (intact xs)) us /\ bit (enc (on_the_way xs)) (merge add us).
Lemma own_one {T} add f rd (t : T) ss : says f rd ss [t] -> got_own add f rd (one_section t) ss.
Proof.
  intros R xs cc Tr <- C. exists (keep (map (fun x => forallb snd (fst x)) xs) [t]). split; [exact (chosen f rd xs [t] R)|].
  destruct xs as [|[y s] [|x xs]]; cbn [map snd] in R; inversion R as [|? ? ? ? _ R']; subst; inversion R'; subst.
  unfold on_the_way. cbn [map fst concat]. rewrite app_nil_r, keep_cons. split; intros W.
  - apply whole_all in W. rewrite W. reflexivity.
  - destruct (forallb snd y) eqn:B; [|reflexivity]. exfalso. apply W, whole_all, B.
Qed.
Lemma own_many {A T} add f rd (items : list A) (mk : list (list N * bool) -> list A -> T -> Prop) gs ts ss : says f rd ss ts -> items = concat gs -> gs <> [] -> length gs = length ss ->
  (forall l, match keep (arrive l) gs with [] => merge add (keep (arrive l) ts) = None | k => exists u, merge add (keep (arrive l) ts) = Some u /\ mk l (concat k) u end) ->
  got_own add f rd (fun l o => sections items l o (mk l)) ss.
Proof.
  intros R E Z L B xs cc Tr <- C. exists (keep (map (fun x => forallb snd (fst x)) xs) ts). split; [exact (chosen f rd xs ts R)|]. exists gs. split; [exact E|].
  split; [rewrite (runs_sections xs Tr cc C), map_length, L, map_length; reflexivity|]. split; [destruct gs; [congruence|cbn [length]; lia]|].
  rewrite <- (arrive_sections xs Tr cc C). apply B.
Qed.
Lemma says_numbered {A T} ids min (rd : list N -> T -> Prop) (g : nat -> A -> list N) (h : A -> T) : (forall i x, (min <= length (g i x))%nat) -> (forall i x, ids (field (g i x) 0 8) = true) ->
  forall l n, Forall section_ok (numbered g n l) -> (forall i x, In x l -> (n <= i)%nat -> rd (g i x) (h x)) -> says (heard1 ids min) rd (numbered g n l) (map h l).
Proof.
  intros L I. induction l as [|x l IH]; intros n K R; cbn [numbered map] in *; constructor; inversion K; subst.
  - split; [apply heard_ok; auto|]. apply R; [left; reflexivity|lia].
  - apply IH; [assumption|]. intros i y Iy Hn. apply R; [right; exact Iy|lia].
Qed.
Lemma says_map {A T} ids min (rd : list N -> T -> Prop) (g : A -> list N) (h : A -> T) : (forall x, (min <= length (g x))%nat) ->
  forall l, Forall section_ok (map g l) -> Forall (fun x => ids (field (g x) 0 8) = true) l -> Forall (fun x => rd (g x) (h x)) l -> says (heard1 ids min) rd (map g l) (map h l).
Proof.
  intros L. induction l as [|x l IH]; intros K I R; cbn [map]; constructor; inversion K; inversion I; inversion R; subst; [split; [apply heard_ok; auto|assumption]|apply IH; assumption].
Qed.

(** *** PAT and TOT: one section *)
Lemma pat_own m t pid cc ss : pat_sendable t -> pid < 8192 -> cc < 16 -> Forall framed ss -> pat_demux m t pid cc [] = Ok (next_cc pid cc ss, concat (stream pid cc ss)) ->
  got_own pat_add (heard1 id_pat 12) pat_reads (one_section t) ss.
Proof.
  intros (H & L) Hp Hc F D. destruct (pat_demux_spec m t pid cc [] H Hp Hc) as (E & K & _). rewrite E in D. apply P_distinct.ok_inj, (f_equal snd) in D. cbn [snd app] in D.
  apply P_tell.same_sections in D; [|assumption|assumption|apply ok_framed; constructor; [exact K|constructor]|exact F]. subst ss. apply own_one. constructor; [|constructor].
  pose proof H as (H1 & H2 & H3). rewrite firstn_all2 in K |- * by exact L. split; [apply heard_ok; [exact K| |]|].
  - unfold pat_section. rewrite section_len. lia.
  - unfold pat_section. rewrite (proj1 (section_head 0 _ _ _ _ _ _ eq_refl H2 H1)). reflexivity.
  - pose proof (pat_back t (pat_items t) H1 H2 H3) as B. destruct t. exact B.
Qed.
Lemma tot_own m t pid cc ss : tot_sendable t -> pid < 8192 -> cc < 16 -> Forall framed ss -> tot_demux m t pid cc [] = Ok (next_cc pid cc ss, concat (stream pid cc ss)) ->
  got_own tot_add (heard1 id_tot 14) tot_reads (one_section t) ss.
Proof.
  intros (H1 & H2 & H3 & H4) Hp Hc F D. destruct (tot_demux_spec m t pid cc [] H1 H2 H3 Hp Hc) as (E & K). rewrite E in D. apply P_distinct.ok_inj, (f_equal snd) in D. cbn [snd app] in D.
  apply P_tell.same_sections in D; [|assumption|assumption|apply ok_framed; constructor; [exact K|constructor]|exact F]. subst ss. apply own_one. constructor; [|constructor].
  destruct (tot_app t) as (h & c & Lh & Et & Lc & Ft). split; [apply heard_ok; [exact K| |rewrite Ft; reflexivity]|apply tot_back; assumption].
  rewrite Et, !app_length, layout_length, Lh, Lc by reflexivity. tw. lia.
Qed.

(** *** SDT, PMT, NIT: sections with groups of items *)
Lemma sdt_fold t : forall c I, fold_left sdt_add (map (fun g => mkSdt (sdt_table t) (sdt_version t) (sdt_tsid t) (sdt_onid t) g) c)
  (mkSdt (sdt_table t) (sdt_version t) (sdt_tsid t) (sdt_onid t) I) = mkSdt (sdt_table t) (sdt_version t) (sdt_tsid t) (sdt_onid t) (I ++ concat c).
Proof. induction c as [|g c IH]; intros I; cbn [map fold_left concat]; [rewrite app_nil_r; reflexivity|]. unfold sdt_add at 2. cbn. rewrite IH, app_assoc. reflexivity. Qed.
Lemma sdt_own m t pid cc ss : sdt_sendable t -> pid < 8192 -> cc < 16 -> Forall framed ss -> sdt_demux m t pid cc [] = Ok (next_cc pid cc ss, concat (stream pid cc ss)) ->
  got_own sdt_add (heard1 id_sdt 15) sdt_reads (sdt_bit (TSdt t)) ss.
Proof.
  intros (H & Fi & X & T) Hp Hc F D. destruct (sdt_demux_spec m t pid cc [] H Fi Hp Hc) as (g0 & gs & E & _ & E'). cbv zeta in E'. destruct E' as [E' K].
  rewrite E' in D. apply P_distinct.ok_inj, (f_equal snd) in D. cbn [snd app] in D. apply P_tell.same_sections in D; [|assumption|assumption|apply ok_framed; exact K|exact F]. subst ss.
  pose proof H as (H1 & H2 & H3 & H4 & H5). destruct (in_groups _ _ _ _ E H5) as [G0 G1]. destruct (in_groups _ _ _ _ E X) as [X0 X1].
  refine (own_many _ _ _ (sdt_items t) (fun _ items u => u = mkSdt (sdt_table t) (sdt_version t) (sdt_tsid t) (sdt_onid t) items) (g0 :: gs) _ _
    (says_numbered id_sdt 15 sdt_reads _ (fun g => mkSdt (sdt_table t) (sdt_version t) (sdt_tsid t) (sdt_onid t) g) _ _ _ _ K _) E _ _ _).
  - intros; apply sdt_len.
  - intros i g. rewrite sdt_tables by exact H. destruct T as [-> | ->]; reflexivity.
  - intros i g I _. apply sdt_back; try assumption; [destruct I as [<-|I]; [exact G0|exact (forall_in _ _ _ G1 I)]|destruct I as [<-|I]; [exact X0|exact (forall_in _ _ _ X1 I)]].
  - discriminate.
  - symmetry. apply numbered_length.
  - intros l. rewrite keep_map. destruct (keep (arrive l) (g0 :: gs)) as [|g c]; [reflexivity|]. cbn [map merge]. rewrite sdt_fold. eexists. split; reflexivity.
Qed.
Lemma pmt_fold t : forall c I, fold_left pmt_add (map (fun g => mkPmt (pmt_version t) (pmt_pnr t) (pmt_pcr t) [] g) c)
  (mkPmt (pmt_version t) (pmt_pnr t) (pmt_pcr t) [] I) = mkPmt (pmt_version t) (pmt_pnr t) (pmt_pcr t) [] (I ++ concat c).
Proof. induction c as [|g c IH]; intros I; cbn [map fold_left concat]; [rewrite app_nil_r; reflexivity|]. unfold pmt_add at 2. cbn. rewrite IH, app_assoc. reflexivity. Qed.
Lemma pmt_own m t pid cc ss : pmt_sendable t -> pid < 8192 -> cc < 16 -> Forall framed ss -> pmt_demux m t pid cc [] = Ok (next_cc pid cc ss, concat (stream pid cc ss)) ->
  got_own pmt_add (heard1 id_pmt 16) pmt_seen (pmt_bit (TPmt t)) ss.
Proof.
  intros (H & Fi & Y & X) Hp Hc F D. destruct (pmt_demux_spec m t pid cc [] H Fi Hp Hc) as (g0 & gs & E & _ & E'). cbv zeta in E'. destruct E' as [E' K].
  rewrite E' in D. apply P_distinct.ok_inj, (f_equal snd) in D. cbn [snd app] in D. apply P_tell.same_sections in D; [|assumption|assumption|apply ok_framed; exact K|exact F]. subst ss.
  pose proof H as (H1 & H2 & H3 & H4 & H5). destruct (in_groups _ _ _ _ E H5) as [G0 G1]. destruct (in_groups _ _ _ _ E X) as [X0 X1].
  refine (own_many _ _ _ (pmt_items t) (fun l items u => u = mkPmt (pmt_version t) (pmt_pnr t) (pmt_pcr t) (first_descs l (pmt_descs t)) items) (g0 :: gs) _ _
    (says_numbered id_pmt 16 pmt_seen _ (fun g => mkPmt (pmt_version t) (pmt_pnr t) (pmt_pcr t) [] g) _ _ _ _ K _) E _ _ _).
  - intros; apply pmt_len.
  - intros i g. rewrite pmt_tables by exact H. reflexivity.
  - intros i g I _. apply pmt_back; try assumption; [intros _; exact Y|destruct I as [<-|I]; [exact G0|exact (forall_in _ _ _ G1 I)]|destruct I as [<-|I]; [exact X0|exact (forall_in _ _ _ X1 I)]].
  - discriminate.
  - symmetry. apply numbered_length.
  - intros l. rewrite keep_map. destruct (keep (arrive l) (g0 :: gs)) as [|g c]; [reflexivity|]. cbn [map merge]. rewrite pmt_fold. eexists. split; [reflexivity|].
    unfold first_descs. rewrite Y. destruct (hd false (arrive l)); reflexivity.
Qed.
Lemma nit_fold t : forall c D I, fold_left nit_add (map (fun g => mkNit (nit_table t) (nit_version t) (nit_network t) [] g) c)
  (mkNit (nit_table t) (nit_version t) (nit_network t) D I) = mkNit (nit_table t) (nit_version t) (nit_network t) D (I ++ concat c).
Proof. induction c as [|g c IH]; intros D I; cbn [map fold_left concat]; [rewrite app_nil_r; reflexivity|]. unfold nit_add at 2. cbn. rewrite app_nil_r, IH, app_assoc. reflexivity. Qed.
Lemma nit_own m t pid cc ss : nit_sendable t -> pid < 8192 -> cc < 16 -> Forall framed ss -> nit_demux m t pid cc [] = Ok (next_cc pid cc ss, concat (stream pid cc ss)) ->
  got_own nit_add (heard1 id_nit 16) nit_reads (nit_bit (TNit t)) ss.
Proof.
  intros (H & Fi & Y & X & T) Hp Hc F D. destruct (nit_demux_spec m t pid cc [] H Fi Hp Hc) as (g0 & gs & E & _ & E'). cbv zeta in E'. destruct E' as [E' K].
  rewrite E' in D. apply P_distinct.ok_inj, (f_equal snd) in D. cbn [snd app] in D. apply P_tell.same_sections in D; [|assumption|assumption|apply ok_framed; exact K|exact F]. subst ss.
  pose proof H as (H1 & H2 & H3 & H4 & H5). destruct (in_groups _ _ _ _ E H5) as [G0 G1]. destruct (in_groups _ _ _ _ E X) as [X0 X1].
  assert (I0 : forall last i g, id_nit (field (nit_section t last i g) 0 8) = true) by (intros; rewrite nit_tables by exact H; destruct T as [-> | ->]; reflexivity).
  refine (own_many _ _ _ (nit_items t) (fun l items u => u = mkNit (nit_table t) (nit_version t) (nit_network t) (first_descs l (nit_descs t)) items) (g0 :: gs)
    (mkNit (nit_table t) (nit_version t) (nit_network t) (nit_descs t) g0 :: map (fun g => mkNit (nit_table t) (nit_version t) (nit_network t) [] g) gs) _ _ E _ _ _).
  - cbn [numbered] in K |- *. inversion K as [|? ? K1 K2]; subst. constructor.
    + split; [apply heard_ok; [exact K1|apply nit_len|apply I0]|]. exact (nit_back t _ 0 g0 H1 H2 H3 H4 Y G0 X0).
    + apply (says_numbered id_nit 16 nit_reads); [intros; apply nit_len|intros; apply I0|exact K2|].
      intros i g I Hi. pose proof (nit_back t (N.of_nat (length gs)) i g H1 H2 H3 H4 Y (forall_in _ _ _ G1 I) (forall_in _ _ _ X1 I)) as B. destruct i as [|i]; [lia|exact B].
  - discriminate.
  - symmetry. apply numbered_length.
  - intros l. unfold first_descs. destruct (arrive l) as [|b bs]; [reflexivity|]. cbn [hd]. rewrite !keep_cons, keep_map. destruct b.
    + cbn [merge]. rewrite nit_fold. eexists. split; reflexivity.
    + destruct (keep bs gs) as [|g c]; [reflexivity|]. cbn [map merge]. rewrite nit_fold. eexists. split; reflexivity.
Qed.

(** *** EIT *)
Definition slot_eit (t : eit) (s : slot) : eit := mkEit (slot_table s) (eit_version t) (eit_pnr t) (eit_tsid t) (eit_onid t) (slot_items s).
Lemma eit_fold t : forall c I, fold_left eit_add (map (slot_eit t) c) (slot_eit t I) =
  mkEit (slot_table (last c I)) (eit_version t) (eit_pnr t) (eit_tsid t) (eit_onid t) (slot_items I ++ concat (map slot_items c)).
Proof.
  intros c I. unfold slot_eit at 2. generalize (slot_items I) as J. revert I. induction c as [|g c IH]; intros I J; cbn [map fold_left concat]; [rewrite app_nil_r; reflexivity|].
  unfold eit_add at 2. cbn [slot_eit eit_table eit_version eit_pnr eit_tsid eit_onid eit_items]. rewrite IH, last_cons, app_assoc. reflexivity.
Qed.
Lemma slots_own t slots : eit_ok t -> slots <> [] -> Forall section_ok (map (slot_section t) slots) ->
  Forall (fun s => 0x4E <= slot_table s <= 0x6F /\ kind_of (slot_table s) t /\ Forall eit_item_ok (slot_items s) /\ Forall (item_exact eiti_descs) (slot_items s)) slots ->
  concat (map slot_items slots) = eit_items t ->
  got_own eit_add (heard1 id_eit 18) eit_reads (fun l o => sections (eit_items t) l o (fun items u => exists tb, kind_of tb t /\ u = mkEit tb (eit_version t) (eit_pnr t) (eit_tsid t) (eit_onid t) items)) (map (slot_section t) slots).
Proof.
  intros H Z K Fs E. pose proof H as (H1 & H2 & H3 & H4 & H5 & H6).
  refine (own_many _ _ _ (eit_items t) (fun _ items u => exists tb, kind_of tb t /\ u = mkEit tb (eit_version t) (eit_pnr t) (eit_tsid t) (eit_onid t) items) (map slot_items slots)
    (map (slot_eit t) slots) _ _ (eq_sym E) _ _ _).
  - apply says_map; [intros [[[[[tb n] a] b] c] g]; apply eit_len|exact K| |].
    + eapply Forall_impl; [|exact Fs]. intros [[[[[tb n] a] b] c] g] (A & _). cbn [slot_section slot_table] in *. rewrite eit_tables by (try exact H; lia). unfold id_eit. lia.
    + eapply Forall_impl; [|exact Fs]. intros [[[[[tb n] a] b] c] g] (A & _ & B & C). cbn [slot_section slot_table slot_items] in *. unfold slot_eit. cbn [slot_table slot_items].
      apply eit_back; try assumption. change (2 ^ 8) with 256. lia.
  - destruct slots; [congruence|discriminate].
  - rewrite !map_length. reflexivity.
  - intros l. rewrite !keep_map. destruct (keep (arrive l) slots) as [|g c] eqn:Ek; [reflexivity|]. cbn [map merge]. rewrite eit_fold. eexists. split; [reflexivity|].
    exists (slot_table (last c g)). split; [|reflexivity]. assert (I : In (last c g) (g :: c)) by (destruct c as [|h c]; [left; reflexivity|right]; apply last_in; discriminate).
    rewrite <- Ek in I. apply keep_in in I. rewrite Forall_forall in Fs. apply Fs in I. apply I.
Qed.
Lemma eit_own m t pid cc ss : sendable (TEit t) -> pid < 8192 -> cc < 16 -> Forall framed ss -> eit_demux m t pid cc [] = Ok (next_cc pid cc ss, concat (stream pid cc ss)) ->
  got_own eit_add (heard1 id_eit 18) eit_reads (eit_bit (TEit t)) ss.
Proof.
  intros [(H & Fi & X & T & L1 & L2)|(H & Fi & X & T & L)] Hp Hc F D.
  - destruct (eit_pf_demux m t pid cc [] H Fi T L2 Hp Hc) as [E K]. rewrite E in D. apply P_distinct.ok_inj, (f_equal snd) in D. cbn [snd app] in D.
    apply P_tell.same_sections in D; [|assumption|assumption|apply ok_framed; exact K|exact F]. subst ss.
    destruct (pf_slots_spec t (eit_table t) (N.of_nat (length (eit_items t) - 1)) (eit_items t) 0) as (E1 & E2 & E3). rewrite <- E1 in K |- *. apply slots_own; [exact H| |exact K| |exact E2].
    + destruct (eit_items t); [cbn in L1; lia|discriminate].
    + pose proof H as (_ & _ & _ & _ & _ & H6). eapply Forall_impl; [|exact E3]. intros s (A & i & I & B). rewrite A, B. unfold exact_items in X. rewrite Forall_forall in H6, X.
      split; [destruct T as [-> | ->]; lia|]. split; [left; reflexivity|]. split; (constructor; [|constructor]); [exact (H6 i I)|exact (X i I)].
  - destruct (eit_items t) as [|first items] eqn:E; [cbn in L; lia|].
    destruct (eit_demux_schedule m t first items pid cc [] H E Fi T Hp Hc) as [D' K].
    destruct (eit_plan m t first items) as [[lt l]| |] eqn:P; try congruence. specialize (K lt l eq_refl). cbv zeta in D'.
    destruct (sched_plan m t first items pid cc [] H E Fi T Hp Hc lt l P) as (D1 & D2 & D3 & D4 & D5 & D6 & D7).
    destruct (seen_few t _ _ _ T (D7 ltac:(rewrite E; apply L))) as (_ & B & V). rewrite D' in D. apply P_distinct.ok_inj, (f_equal snd) in D. cbn [snd app] in D.
    apply P_tell.same_sections in D; [|assumption|assumption|apply ok_framed; exact K|exact F]. subst ss.
    pose proof (plan_parts m t first items H E Fi lt l P) as PP. pose proof (eit_plan_items _ _ _ _ _ _ P) as PI.
    apply slots_own; [exact H| |exact K| |rewrite slot_part_items, sealing_parts, PI, E; reflexivity].
    + intros Z. pose proof (sealing_parts lt l) as Q. rewrite Z in Q. cbn [map] in Q. subst l. discriminate.
    + assert (XX : Forall (fun x => Forall (item_exact eiti_descs) (part_items x)) l).
      { unfold exact_items in X. rewrite <- PI in X. clear - X. induction l as [|x l IH]; [constructor|]. cbn [map concat] in X. apply Forall_app in X as [A B]. constructor; auto. }
      pose proof (forall_map_parts _ lt l PP) as Q1. pose proof (forall_map_parts _ lt l XX) as Q2. rewrite Forall_forall in *. intros s I.
      specialize (B s I). specialize (Q1 s I). specialize (Q2 s I). rewrite slot_part_item. cbv beta in *. destruct Q1 as (_ & _ & Q1 & _).
      split; [clear - T B; dlia|]. split; [right; split; [apply T|clear - T B; dlia]|]. split; assumption.
Qed.

(** ** all tables of one PID *)
Definition gets {T} (add : T -> T -> T) (f : list N -> bool) (rd : list N -> T -> Prop) (bit : table -> list (list N * bool) -> option T -> Prop) : Prop :=
  forall m t pid cc ss, sendable t -> pid < 8192 -> cc < 16 -> labelled t ss -> send m t pid cc [] = Ok (next_cc pid cc ss, concat (stream pid cc ss)) -> got_own add f rd (bit t) ss.
Lemma own_none {T} (add : T -> T -> T) (t : table) ids' min rd ss : (forall b, ids t b = true -> ids' b = false) -> labelled t ss -> got_own add (heard1 ids' min) rd (fun _ o => o = None) ss.
Proof. intros H L xs cc _ E _. exists []. split; [|reflexivity]. apply unheard. rewrite E. apply quiet_ids. exact (other t ids' ss H L). Qed.
Ltac none := eapply own_none; [|eassumption]; let b := fresh in intros b; cbn [ids]; unfold id_pat, id_pmt, id_nit, id_sdt, id_eit, id_tot, id_tdt; lia.
Lemma pat_gets : gets pat_add (heard1 id_pat 12) pat_reads pat_bit.
Proof. intros m t pid cc ss S Hp Hc L D. destruct t; cbn [send pat_bit] in *; try none. exact (pat_own m _ pid cc ss S Hp Hc (proj1 L) D). Qed.
Lemma pmt_gets : gets pmt_add (heard1 id_pmt 16) pmt_seen pmt_bit.
Proof. intros m t pid cc ss S Hp Hc L D. destruct t; cbn [send pmt_bit] in *; try none. exact (pmt_own m _ pid cc ss S Hp Hc (proj1 L) D). Qed.
Lemma nit_gets : gets nit_add (heard1 id_nit 16) nit_reads nit_bit.
Proof. intros m t pid cc ss S Hp Hc L D. destruct t; cbn [send nit_bit] in *; try none. exact (nit_own m _ pid cc ss S Hp Hc (proj1 L) D). Qed.
Lemma sdt_gets : gets sdt_add (heard1 id_sdt 15) sdt_reads sdt_bit.
Proof. intros m t pid cc ss S Hp Hc L D. destruct t; cbn [send sdt_bit] in *; try none. exact (sdt_own m _ pid cc ss S Hp Hc (proj1 L) D). Qed.
Lemma eit_gets : gets eit_add (heard1 id_eit 18) eit_reads eit_bit.
Proof. intros m t pid cc ss S Hp Hc L D. destruct t; cbn [send eit_bit] in *; try none. exact (eit_own m _ pid cc ss S Hp Hc (proj1 L) D). Qed.
Lemma tot_gets : gets tot_add (heard1 id_tot 14) tot_reads tot_bit.
Proof. intros m t pid cc ss S Hp Hc L D. destruct t; cbn [send tot_bit] in *; try none. exact (tot_own m _ pid cc ss S Hp Hc (proj1 L) D). Qed.

Lemma way_app a b : on_the_way (a ++ b) = on_the_way a ++ on_the_way b.
Proof. unfold on_the_way. rewrite map_app, concat_app. reflexivity. Qed.
Lemma intact_app a b : intact (a ++ b) = intact a ++ intact b.
Proof. unfold intact. rewrite filter_app, map_app. reflexivity. Qed.
Lemma somes_cons {T} (o : option T) l : somes (o :: l) = somes [o] ++ somes l.
Proof. unfold somes. cbn [flat_map]. rewrite app_nil_r. reflexivity. Qed.
Lemma next_lt pid cc ss : next_cc pid cc ss < 16.
Proof. unfold next_cc. apply N.mod_lt. discriminate. Qed.
Lemma deliver {T} (add : T -> T -> T) f rd bit m pid : (forall a b c, add (add a b) c = add a (add b c)) -> gets add f rd bit -> pid < 8192 -> forall xs cc, cc < 16 -> goes_out m pid cc xs ->
  exists ys, transmitted ys /\ Forall own_length ys /\ enc (on_the_way ys) = all_packets xs /\ counted ((cc + 15) mod 16) (sent_packets (on_the_way ys)) /\
    exists us ps, Forall2 rd (filter f (intact ys)) us /\ Forall2 (fun x o => bit (fst x) (snd x) o) xs ps /\ forall old, fold_left add us old = fold_left add (somes ps) old.
Proof.
  intros A G Hp. induction xs as [|[t l] xs IH]; intros cc Hc O.
  - exists []. split; [constructor|]. split; [constructor|]. split; [reflexivity|]. split; [exact I|]. exists [], []. split; [constructor|]. split; [constructor|reflexivity].
  - destruct O as (S & L & cc' & D & O). destruct (send_sections m t pid cc _ S Hp Hc D) as (ss & La & E). injection E as -> E.
    rewrite E in D. apply (f_equal (@id _)) in E. unfold id in E. symmetry in E. apply same_packets in E; [|apply La|exact Hc|apply Forall_map; exact L].
    destruct (stream_marks pid ss (proj1 La) cc l Hc (eq_sym E)) as (x1 & T1 & M1 & E1 & C1 & L1 & O1).
    destruct (G m t pid cc ss S Hp Hc La D x1 _ T1 M1 C1) as (u1 & R1 & B1).
    destruct (IH _ (next_lt pid cc ss) O) as (x2 & T2 & O2 & E2 & C2 & u2 & ps & R2 & B2 & Q2).
    exists (x1 ++ x2). split; [apply Forall_app; split; assumption|]. split; [apply Forall_app; split; assumption|]. split; [rewrite way_app, enc_app, E1, E2; reflexivity|]. split.
    + rewrite way_app, sent_app. apply counted_app. split; [exact C1|]. rewrite L1. exact C2.
    + exists (u1 ++ u2), (merge add u1 :: ps). split; [rewrite intact_app, filter_app; apply Forall2_app; assumption|]. split.
      * constructor; [cbn [fst snd]; rewrite <- E1; exact B1|exact B2].
      * intros old. rewrite somes_cons, !fold_left_app, Q2, <- (merge_fold add A). reflexivity.
Qed.
Lemma delivered {T} (parse : mode -> T -> psi -> res T) add f rd bit m pid cc xs : (forall m', readable (parse m') f rd add) -> (forall a b c, add (add a b) c = add a (add b c)) -> gets add f rd bit ->
  pid < 8192 -> cc < 16 -> goes_out m pid cc xs -> shows Nothing (all_packets xs) ->
  exists ps, Forall2 (fun x o => bit (fst x) (snd x) o) xs ps /\ forall m' p old, exists q, receive m' (parse m') p old (got (all_packets xs)) = Ok (q, fold_left add (somes ps) old).
Proof.
  intros R A G Hp Hc O S. destruct (deliver add f rd bit m pid A G Hp xs cc Hc O) as (ys & Tr & _ & E & C & us & ps & U & B & Q).
  exists ps. split; [exact B|]. intros m' p old. rewrite <- E in S |- *. rewrite got_arrived, <- Q.
  exact (all_sections m' (parse m') f rd add (R m') ys Tr Nothing _ p old us C (shows_gaps _ _ S) I U).
Qed.
Ltac assoc := intros; match goal with |- ?f _ _ = _ => unfold f end; cbn; f_equal; rewrite ?app_assoc; reflexivity.
Lemma pat_lossy m pid cc xs : pid < 8192 -> cc < 16 -> goes_out m pid cc xs -> shows Nothing (all_packets xs) ->
  exists ps, Forall2 (fun x o => pat_bit (fst x) (snd x) o) xs ps /\ forall m' p old, exists q, receive m' (pat_parse m') p old (got (all_packets xs)) = Ok (q, fold_left pat_add (somes ps) old).
Proof. apply (delivered pat_parse pat_add (heard1 id_pat 12) pat_reads); [exact pat_readable|assoc|exact pat_gets]. Qed.
Lemma pmt_lossy m pid cc xs : pid < 8192 -> cc < 16 -> goes_out m pid cc xs -> shows Nothing (all_packets xs) ->
  exists ps, Forall2 (fun x o => pmt_bit (fst x) (snd x) o) xs ps /\ forall m' p old, exists q, receive m' (pmt_parse m') p old (got (all_packets xs)) = Ok (q, fold_left pmt_add (somes ps) old).
Proof. apply (delivered pmt_parse pmt_add (heard1 id_pmt 16) pmt_seen); [exact pmt_readable|assoc|exact pmt_gets]. Qed.
Lemma nit_lossy m pid cc xs : pid < 8192 -> cc < 16 -> goes_out m pid cc xs -> shows Nothing (all_packets xs) ->
  exists ps, Forall2 (fun x o => nit_bit (fst x) (snd x) o) xs ps /\ forall m' p old, exists q, receive m' (nit_parse m') p old (got (all_packets xs)) = Ok (q, fold_left nit_add (somes ps) old).
Proof. apply (delivered nit_parse nit_add (heard1 id_nit 16) nit_reads); [exact nit_readable|assoc|exact nit_gets]. Qed.
Lemma sdt_lossy m pid cc xs : pid < 8192 -> cc < 16 -> goes_out m pid cc xs -> shows Nothing (all_packets xs) ->
  exists ps, Forall2 (fun x o => sdt_bit (fst x) (snd x) o) xs ps /\ forall m' p old, exists q, receive m' (sdt_parse m') p old (got (all_packets xs)) = Ok (q, fold_left sdt_add (somes ps) old).
Proof. apply (delivered sdt_parse sdt_add (heard1 id_sdt 15) sdt_reads); [exact sdt_readable|assoc|exact sdt_gets]. Qed.
Lemma eit_lossy m pid cc xs : pid < 8192 -> cc < 16 -> goes_out m pid cc xs -> shows Nothing (all_packets xs) ->
  exists ps, Forall2 (fun x o => eit_bit (fst x) (snd x) o) xs ps /\ forall m' p old, exists q, receive m' (eit_parse m') p old (got (all_packets xs)) = Ok (q, fold_left eit_add (somes ps) old).
Proof. apply (delivered eit_parse eit_add (heard1 id_eit 18) eit_reads); [exact eit_readable|assoc|exact eit_gets]. Qed.
Lemma tot_lossy m pid cc xs : pid < 8192 -> cc < 16 -> goes_out m pid cc xs -> shows Nothing (all_packets xs) ->
  exists ps, Forall2 (fun x o => tot_bit (fst x) (snd x) o) xs ps /\ forall m' p old, exists q, receive m' (tot_parse m') p old (got (all_packets xs)) = Ok (q, fold_left tot_add (somes ps) old).
Proof. apply (delivered tot_parse tot_add (heard1 id_tot 14) tot_reads); [exact tot_readable|assoc|exact tot_gets]. Qed.

(** *** the time: a section without CRC, in one packet *)
Lemma tdt_heard m t s extra u i cc : framed s -> bytes extra -> heard1_tdt s = true -> tdt_reads s u -> tdt_parse m t (mkPsi (s ++ extra) (length s) i cc) = Ok u.
Proof.
  intros [B _] Be H R. unfold heard1_tdt in H. rewrite andb_true_iff, Nat.eqb_eq, N.eqb_eq in H. destruct H as [H1 H2].
  apply (tdt_parse_section m t _ s u); cbn [p_buffer p_size]; [apply bytes_app; split; assumption|exact H1|rewrite app_length; lia| |exact H2|exact R].
  rewrite firstn_app, H1, Nat.sub_diag, firstn_O, app_nil_r. rewrite firstn_all2 by lia. reflexivity.
Qed.
Lemma tdt_unheard m t s extra i cc : framed s -> bytes extra -> heard1_tdt s = false -> tdt_parse m t (mkPsi (s ++ extra) (length s) i cc) = Ok t.
Proof.
  intros F Be H. pose proof (framed_len s F) as L. destruct F as [B _]. unfold tdt_parse, tdt_check. cbn [p_buffer p_size]. unfold heard1_tdt in H. destruct (Nat.eqb_spec (length s) 8) as [E|E]; [|reflexivity].
  cbn [negb]. rewrite P_desc2.get_field by (try (rewrite app_length; lia); apply bytes_app; split; assumption). cbn [bind Nat.mul Nat.add]. rewrite field_prefix by lia. cbn [andb] in H. rewrite H. reflexivity.
Qed.
Lemma tdt_cleared m t p : tdt_parse m t (psi_clear p) = Ok t.
Proof. reflexivity. Qed.
Lemma tdt_own m t pid cc ss : tdt_sendable t -> pid < 8192 -> cc < 16 -> Forall framed ss -> tdt_demux m t pid cc [] = Ok (next_cc pid cc ss, concat (stream pid cc ss)) ->
  got_own (fun _ u : N => u) heard1_tdt tdt_reads (one_section t) ss.
Proof.
  intros H Hp Hc F D. rewrite (tdt_demux_spec m t pid cc [] H Hp Hc) in D. apply P_distinct.ok_inj, (f_equal snd) in D. cbn [snd app] in D. destruct (tdt_facts t H) as (L & B & Ls & Ft & R).
  apply P_tell.same_sections in D; [|assumption|assumption|constructor; [split; [exact B|congruence]|constructor]|exact F]. subst ss. apply own_one. constructor; [|constructor].
  split; [|exact R]. unfold heard1_tdt. rewrite L, Ft. reflexivity.
Qed.
Lemma tdt_none t ss : (forall b, ids t b = true -> id_tdt b = false) -> labelled t ss -> got_own (fun _ u : N => u) heard1_tdt tdt_reads (fun _ o => o = None) ss.
Proof.
  intros H L xs cc _ E _. exists []. split; [|reflexivity]. apply unheard. rewrite E. eapply Forall_impl; [|exact (other t id_tdt ss H L)]. intros s Hs. cbv beta in Hs. unfold heard1_tdt, id_tdt in *. rewrite Hs. apply andb_false_r.
Qed.
Ltac no_time := eapply tdt_none; [|eassumption]; let b := fresh in intros b; cbn [ids]; unfold id_pat, id_pmt, id_nit, id_sdt, id_eit, id_tot, id_tdt; lia.
Lemma tdt_gets : gets (fun _ u : N => u) heard1_tdt tdt_reads tdt_bit.
Proof. intros m t pid cc ss S Hp Hc L D. destruct t; cbn [send tdt_bit] in *; try no_time. exact (tdt_own m _ pid cc ss S Hp Hc (proj1 L) D). Qed.
Lemma tdt_lossy m pid cc xs : pid < 8192 -> cc < 16 -> goes_out m pid cc xs -> shows Nothing (all_packets xs) ->
  exists ps, Forall2 (fun x o => tdt_bit (fst x) (snd x) o) xs ps /\ forall m' p old, exists q, receive m' (tdt_parse m') p old (got (all_packets xs)) = Ok (q, last (somes ps) old).
Proof.
  intros Hp Hc O S. destruct (deliver (fun _ u : N => u) heard1_tdt tdt_reads tdt_bit m pid ltac:(reflexivity) tdt_gets Hp xs cc Hc O) as (ys & Tr & Ol & E & C & us & ps & U & B & Q).
  exists ps. split; [exact B|]. intros m' p old. rewrite <- E in S |- *. rewrite got_arrived.
  replace (last (somes ps) old) with (fold_left (fun _ u : N => u) (somes ps) old); [|clear; revert old; induction (somes ps) as [|x l IH]; intros old; [reflexivity|]; cbn [fold_left]; rewrite IH, last_cons; reflexivity].
  rewrite <- Q. refine (all_sections' m' (tdt_parse m') heard1_tdt tdt_reads (fun _ u => u) _ _ (tdt_cleared m') ys Tr _ Nothing _ p old us C (shows_gaps _ _ S) I U).
  - intros t s extra u i c. apply tdt_heard.
  - intros t s extra i c. apply tdt_unheard.
  - unfold transmitted in Tr. rewrite Forall_forall in *. intros x Ix. destruct (heard1_tdt (snd x)) eqn:Hx.
    + left. rewrite (Ol x Ix). unfold heard1_tdt in Hx. rewrite andb_true_iff, Nat.eqb_eq in Hx. destruct Hx as [-> _]. reflexivity.
    + right. apply tdt_waits; [apply (Tr x Ix)|exact Hx].
Qed.

(** ** losses that show *)
Lemma soon_shows l : soon_again l -> shows Nothing l.
Proof.
  intros [H1 H2]. assert (G : forall suf pre s, l = pre ++ suf ->
    match s with Nothing => ~ start_in pre | In_step => True | Behind d => (2 <= d)%nat /\ exists a x b, pre = a ++ (x, false) :: b /\ (length b + 2 = d)%nat /\ ~ start_in b end -> shows s suf).
  { unfold start_in. induction suf as [|[x b] suf IH]; intros pre s E K; [exact I|]. cbn [shows].
    assert (E' : l = (pre ++ [(x, b)]) ++ suf) by (rewrite <- app_assoc; exact E).
    assert (N0 : forall p, ~ Exists (fun y : list N * bool => snd y = true /\ flag (fst y) 9 = true) p -> b = false \/ flag x 9 = false -> ~ Exists (fun y => snd y = true /\ flag (fst y) 9 = true) (p ++ [(x, b)])).
    { intros p P Q Z. apply Exists_app in Z as [Z|Z]; [exact (P Z)|]. inversion Z as [? ? [Z1 Z2]|? ? Z1]; subst; [|inversion Z1]. cbn [fst snd] in *. destruct Q; congruence. }
    destruct b.
    - destruct (flag x 9) eqn:Fx; [apply (IH _ In_step E' I)|]. destruct s as [| |d].
      + destruct (H1 pre x suf E) as [Z|Z]; [exact (K Z)|congruence].
      + apply (IH _ In_step E' I).
      + destruct K as (K1 & a & y & c & Ea & Lc & Nc). assert (Ld : (d <= 16)%nat).
        { destruct (Nat.le_gt_cases d 16) as [Z|Z]; [exact Z|]. exfalso. apply Nc. rewrite <- (firstn_skipn 15 c). apply Exists_app. left.
          apply (H2 a y (firstn 15 c) (skipn 15 c ++ (x, true) :: suf)); [|rewrite firstn_length; lia]. rewrite E, Ea, <- app_assoc. cbn [app]. do 2 f_equal.
          rewrite app_assoc, firstn_skipn. reflexivity. }
        split; [|apply (IH _ (Behind (S d)) E')].
        * intros Z. assert (d = 1 \/ d >= 17)%nat by (clear - Z; dlia). lia.
        * split; [lia|]. exists a, y, (c ++ [(x, true)]). split; [rewrite Ea, <- app_assoc; reflexivity|]. split; [rewrite app_length; cbn [length]; lia|]. apply N0; [exact Nc|right; reflexivity].
    - destruct s as [| |d]; cbn [miss].
      + apply (IH _ Nothing E'). apply N0; [exact K|left; reflexivity].
      + apply (IH _ (Behind 2) E'). split; [lia|]. exists pre, x, []. split; [reflexivity|]. split; [reflexivity|]. intros Z. inversion Z.
      + destruct K as (K1 & a & y & c & Ea & Lc & Nc). apply (IH _ (Behind (S d)) E'). split; [lia|]. exists a, y, (c ++ [(x, false)]).
        split; [rewrite Ea, <- app_assoc; reflexivity|]. split; [rewrite app_length; cbn [length]; lia|]. apply N0; [exact Nc|left; reflexivity]. }
  apply (G l [] Nothing eq_refl). intros Z. inversion Z.
Qed.

(** ** a PID of a multiplex *)
Lemma marks_split (a b : list (list N)) : forall mk : list (list N * bool), map fst mk = a ++ b -> exists u v, mk = u ++ v /\ map fst u = a /\ map fst v = b.
Proof.
  induction a as [|x a IH]; intros mk E; [exists [], mk; auto|]. destruct mk as [|y mk]; [discriminate|]. cbn [map app] in E. injection E as E1 E2.
  destruct (IH mk E2) as (u & v & -> & E3 & E4). exists (y :: u), v. split; [reflexivity|]. split; [cbn [map]; congruence|exact E4].
Qed.
Lemma made_out m c jobs pks c1 : made m c jobs pks c1 -> forall pid, Forall (fun j => fst j = pid) jobs -> forall l, map fst l = pks ->
  exists xs, map fst xs = map snd jobs /\ all_packets xs = l /\ goes_out m pid (c pid) xs.
Proof.
  induction 1 as [c|c p t r ss pks c1 S Hp Hc L D M IH]; intros pid J l E.
  - destruct l; [|discriminate]. exists []. repeat split.
  - inversion J as [|? ? J1 J2]; subst. cbn [fst] in *. apply marks_split in E as (u & v & -> & E1 & E2). destruct (IH p J2 v E2) as (xs & X1 & X2 & X3).
    exists ((t, u) :: xs). split; [cbn [map fst snd]; congruence|]. split; [unfold all_packets in *; cbn [map snd concat]; congruence|]. cbn [goes_out]. split; [exact S|]. split.
    + rewrite <- (Forall_map fst (fun x => length x = 188%nat)), E1. apply stream_188; [|exact Hc]. eapply Forall_impl; [|exact (proj1 L)]. intros s X. apply X.
    + exists (next_cc p (c p) ss). rewrite E1. split; [exact D|]. unfold put in X3. rewrite N.eqb_refl in X3. exact X3.
Qed.
Lemma filter_marks pid (mk : list (list N * bool)) : map fst (filter (fun x => on pid (fst x)) mk) = filter (on pid) (map fst mk).
Proof. induction mk as [|[x b] mk IH]; [reflexivity|]. cbn [filter map fst]. destruct (on pid x); cbn [map fst]; rewrite IH; reflexivity. Qed.
Lemma multi_lossy m jobs c dst c' mk pid : is_out m jobs c dst c' (map fst mk) ->
  exists xs, map fst xs = tables_on pid jobs /\ all_packets xs = filter (fun x => on pid (fst x)) mk /\ goes_out m pid (c pid) xs.
Proof.
  intros O. destruct (P_tell.made_filter _ _ _ _ _ (out_made _ _ _ _ _ _ O) pid c eq_refl) as (d1 & Q).
  refine (made_out _ _ _ _ _ Q pid _ _ _); [|apply filter_marks]. apply Forall_forall. intros j I. apply filter_In in I as [_ I]. apply N.eqb_eq. exact I.
Qed.
Lemma got_in (mk : list (list N * bool)) x : In x (got mk) -> In x (map fst mk).
Proof. unfold got. intros I. apply in_map_iff in I as (y & <- & I). apply in_map. apply filter_In in I. apply I. Qed.
Lemma got_filter pid (mk : list (list N * bool)) : filter (on pid) (got mk) = got (filter (fun x => on pid (fst x)) mk).
Proof.
  unfold got. induction mk as [|[x b] mk IH]; [reflexivity|]. cbn [filter fst snd]. destruct b; cbn [map fst filter]; destruct (on pid x); cbn [filter snd map fst]; rewrite ?IH; reflexivity.
Qed.
Lemma got_stream m jobs c dst c' mk : is_out m jobs c dst c' (map fst mk) -> in_stream (concat (got mk)) (got mk) /\ bytes (concat (got mk)).
Proof.
  intros O. pose proof (out_made _ _ _ _ _ _ O) as M. pose proof (made_bytes _ _ _ _ _ M) as B.
  assert (B' : bytes (concat (got mk))).
  { unfold bytes in *. rewrite Forall_forall in *. intros b I. apply List.in_concat in I as (x & I & J). apply B. apply List.in_concat. exists x. split; [exact (got_in mk x I)|exact J]. }
  split; [|exact B']. apply P_multi.in_concat; [|exact B']. pose proof (made_sync _ _ _ _ _ M) as S. rewrite Forall_forall in *. intros x I. apply S, got_in, I.
Qed.

(** ** what the specification says when everything or nothing arrives *)
Lemma runs_some {A} (l : list (list N * A)) : Forall (fun g => g <> []) (runs l).
Proof.
  induction l as [|x l IH]; [constructor|]. cbn [runs]. destruct (runs l) as [|[|y g] gs]; [repeat constructor; discriminate|repeat constructor; discriminate|].
  inversion IH; subst. destruct (flag (fst y) 9); repeat (constructor; try discriminate); assumption.
Qed.
Lemma runs_concat {A} (l : list (list N * A)) : concat (runs l) = l.
Proof.
  induction l as [|x l IH]; [reflexivity|]. cbn [runs]. pose proof (runs_some l) as S. destruct (runs l) as [|[|y g] gs].
  - cbn [concat] in IH. subst l. reflexivity.
  - inversion S. congruence.
  - destruct (flag (fst y) 9); rewrite <- IH; reflexivity.
Qed.
Lemma arrive_length l : length (arrive l) = length (runs l).
Proof. apply map_length. Qed.
Lemma whole_arrive l : whole l -> forallb id (arrive l) = true.
Proof.
  unfold whole, arrive. intros W. rewrite <- (runs_concat l) in W. induction (runs l) as [|g gs IH]; [reflexivity|]. cbn [concat] in W. apply Forall_app in W as [W1 W2]. cbn [map forallb]. rewrite (IH W2), andb_true_r.
  unfold id. apply forallb_forall. rewrite Forall_forall in W1. exact W1.
Qed.
Lemma lost_arrive l : lost l -> forallb negb (arrive l) = true.
Proof.
  unfold lost, arrive. intros W. pose proof (runs_some l) as S. rewrite <- (runs_concat l) in W. induction (runs l) as [|g gs IH]; [reflexivity|]. cbn [concat] in W. apply Forall_app in W as [W1 W2]. inversion S as [|? ? S1 S2]; subst.
  cbn [map forallb]. rewrite (IH W2 S2), andb_true_r. destruct g as [|x g]; [congruence|]. inversion W1 as [|? ? W3 _]; subst. cbn [forallb]. rewrite W3. reflexivity.
Qed.
Lemma sections_whole {A T} (items : list A) l (o : option T) mk : sections items l o mk -> whole l -> exists u, o = Some u /\ mk items u.
Proof.
  intros (gs & -> & L & L1 & K) W. rewrite (keep_all (arrive l) gs (whole_arrive l W)) in K by (rewrite arrive_length; congruence). destruct gs; [cbn in L1; lia|exact K].
Qed.
Lemma sections_lost {A T} (items : list A) l (o : option T) mk : sections items l o mk -> lost l -> o = None.
Proof. intros (gs & -> & L & L1 & K) W. rewrite (keep_none (arrive l) gs (lost_arrive l W)) in K. exact K. Qed.
Lemma first_whole {A} l (ds : list A) : l <> [] -> whole l -> first_descs l ds = ds.
Proof.
  intros Z W. unfold first_descs. pose proof (whole_arrive l W) as F. pose proof (runs_concat l) as R. pose proof (arrive_length l) as L. destruct (arrive l) as [|b bs].
  - destruct (runs l); [|discriminate]. cbn in R. congruence.
  - cbn [forallb] in F. apply andb_true_iff in F as [F _]. unfold id in F. cbn [hd]. rewrite F. reflexivity.
Qed.
