(** Combinations: a program taken out of a stream, with a PAT of its own. *)
From Verif Require Import Prelude Layout Facts Facts2 S_ts S_crc S_utils S_psi M_bytes M_ts M_crc M_utils M_psi M_drive M_recv M_desc S_desc
  M_tables S_tables P_bytes P_ts P_crc P_utils P_psi P_mux P_mux2 P_sect P_mux3 P_desc P_desc2 P_desc3 W_psi W_desc P_tab P_tab2 P_tab3 P_tab4 P_tab5 P_tab6 P_tab7 W_tables
  M_reader S_reader P_reader M_system S_system P_sys P_sys2 W_sys S_packed P_packed M_from M_tune S_tune P_tune M_remux S_remux P_remux.

Lemma last_same {A} (x : A) l : Forall (eq x) l -> last l x = x.
Proof. induction 1 as [|y l <- F IH]; [reflexivity|]. destruct l; [reflexivity|]. exact IH. Qed.
Section Own.
Context (m : mode) (v tsid want q : N) (Hv : v < 32) (Ht : tsid < 65536) (Hw : want < 65536) (Hq : q < 8192).
Let t := mkPat v tsid [mkPatI want q].
Let s := pat_section t [mkPatI want q].
Lemma own_ok : pat_ok t.
Proof. repeat split; try assumption. constructor; [split; assumption|constructor]. Qed.
Lemma own_section : section_ok s /\ framed s /\ length s = 16%nat /\ heard1 id_pat 8 s = true /\ made 12 pat_reads pat_default s t.
Proof.
  destruct (pat_demux_spec m t 0 0 [] own_ok ltac:(lia) ltac:(lia)) as (_ & K & _). change (firstn 253 (pat_items t)) with [mkPatI want q] in K. fold s in K.
  assert (L : length s = 16%nat) by (unfold s, pat_section; rewrite section_len; reflexivity).
  split; [exact K|]. split; [split; apply K|]. split; [exact L|]. split.
  - unfold heard1. rewrite L. destruct K as (_ & _ & _ & K). rewrite K. cbn [Nat.leb andb]. rewrite andb_true_r. unfold s, pat_section.
    rewrite (proj1 (section_head 0 _ _ _ _ _ _ eq_refl Ht Hv)). reflexivity.
  - unfold made. rewrite L. cbn [Nat.leb]. apply (pat_back t [mkPatI want q] Hv Ht). constructor; [split; assumption|constructor].
Qed.
Lemma own_packet cc cc' o : cc < 16 -> pat_demux m t 0 cc [] = Ok (cc', o) -> exists k, o = encode k /\ carries [k] s /\ length (encode k) = 188%nat.
Proof.
  intros Hc D. destruct (pat_demux_spec m t 0 cc [] own_ok ltac:(lia) Hc) as (D' & _). change (firstn 253 (pat_items t)) with [mkPatI want q] in D'. fold s in D'.
  rewrite D in D'. cbn [app] in D'. rewrite stream_cons in D'. destruct own_section as (K & Fr & L & _).
  destruct (section_carried 0 cc s Fr Hc) as (l & E & C & Ll & _). rewrite L in Ll. change (S (16 / 184)) with 1%nat in Ll.
  destruct l as [|k [|? ?]]; try discriminate. rewrite E in D'. exists k. injection D' as _ D'. split; [rewrite D'; cbn [map stream concat app]; rewrite app_nil_r; reflexivity|].
  split; [exact C|]. pose proof (section_packets_188 0 cc s (proj1 K) Hc) as H. rewrite E in H. inversion H; assumption.
Qed.
Lemma own_packets ts o : sent (pat_demux m) 0 ts o -> Forall (eq t) ts ->
  exists ks, o = concat (map encode ks) /\ Forall (fun x => length x = 188%nat) (map encode ks) /\ Forall2 carries (map (fun k => [k]) ks) (map (fun _ => s) ts).
Proof.
  induction 1 as [|t' ts cc cc' o out Hc D S IH]; intros F; [exists []; repeat split; constructor|].
  inversion F as [|? ? <- F']; subst. destruct (IH F') as (ks & E & L & C). destruct (own_packet cc cc' o Hc D) as (k & -> & Ck & Lk).
  exists (k :: ks). cbn [map concat]. split; [rewrite E; reflexivity|]. split; constructor; assumption.
Qed.
Lemma concat_single {A} (l : list A) : concat (map (fun k => [k]) l) = l.
Proof. induction l as [|x l IH]; [reflexivity|]. cbn [map concat app]. rewrite IH. reflexivity. Qed.
Lemma own_pats (ts : list pat) : Forall (eq t) ts -> Forall2 (made 12 pat_reads pat_default) (filter (heard1 id_pat 8) (map (fun _ => s) ts)) ts.
Proof.
  destruct own_section as (_ & _ & _ & H & R). induction 1 as [|x ts <- F IH]; [constructor|]. cbn [map filter]. rewrite H. constructor; [exact R|exact IH].
Qed.
Lemma own_prog : prog_pid want t = Some q.
Proof. unfold prog_pid. cbn [t pat_items find pati_pnr]. rewrite N.eqb_refl. reflexivity. Qed.
Lemma own_tune ts o x b m' p u : q <> 0 -> Forall (fun pk => length pk = 188%nat /\ bytes pk) (x :: b) -> on 0 x = true ->
  sent (pat_demux m) 0 ts o -> Forall (eq t) ts -> concat (filter (on 0) (x :: b)) = o ->
  receive m' (latest_pmt m' want) psi_default pmt_default (filter (on q) (x :: b)) = Ok (p, u) ->
  exists p0, tune m' want tuner_new (x :: b) = Ok (mkTuner p0 t p u).
Proof.
  intros Hq0 F Ox S Fe E R. destruct (own_packets ts o S Fe) as (ks & E' & L & C).
  assert (X : filter (on 0) (x :: b) = map encode ks).
  { apply concat_inj; [|exact L|congruence]. rewrite Forall_forall in *. intros y Hy. apply filter_In in Hy as [Hy _]. apply F. exact Hy. }
  assert (Oq : on q x = false) by (unfold on in *; apply N.eqb_eq in Ox; rewrite Ox; apply N.eqb_neq; congruence).
  cbn [filter] in X, R. rewrite Ox in X. rewrite Oq in R. destruct ks as [|k ks]; [discriminate|]. cbn [map] in X. injection X as Ex Eb. subst x.
  destruct ts as [|t0 ts]; [inversion C|]. inversion Fe as [|? ? Et Fe']; subst t0. cbn [map] in C. inversion C as [|? ? ? ? C1 C2]; subst.
  destruct own_section as (_ & Fr & _ & H & Rd).
  assert (F3 : Forall (fun pk => (3 <= length pk)%nat /\ bytes pk) (encode k :: b)) by (eapply Forall_impl; [|exact F]; intros y [Y1 Y2]; split; [lia|exact Y2]).
  destruct (moves m' want tuner_new [] k [] [] [] [] s t) as [p0 E0].
  - inversion F3. constructor; [assumption|constructor].
  - cbn [app filter concat map]. rewrite Ox. reflexivity.
  - exact Ox.
  - constructor.
  - constructor.
  - exact C1.
  - exact Fr.
  - constructor.
  - cbn [filter]. rewrite H. constructor; [exact Rd|constructor].
  - constructor.
  - rewrite own_prog. discriminate.
  - exact I.
  - cbn [app tune] in E0. change (encode k :: b) with ([encode k] ++ b). rewrite tune_app. cbn [tune]. rewrite E0. cbn [bind].
    destruct (tune_locked m' want (mkTuner p0 t psi_default pmt_default) q b (map (fun k => [k]) ks) (map (fun _ => s) ts) ts) with (q2 := p) (t2 := u) as [q1 E1].
    + inversion F3; assumption.
    + exact own_prog.
    + exact Hq0.
    + rewrite concat_single. exact Eb.
    + exact C2.
    + clear - Fr. induction ts; constructor; assumption.
    + exact (own_pats ts Fe').
    + eapply Forall_impl; [|exact Fe']. intros y <-. exact own_prog.
    + exact R.
    + exists q1. rewrite E1. cbn [u_pat]. f_equal. f_equal. exact (last_same t ts Fe').
Qed.
End Own.
Lemma extract : forall m m' v tsid want q route pid l out ts o x b p u, v < 32 -> tsid < 65536 -> want < 65536 -> q < 8192 -> q <> 0 ->
  (forall x y, route x = Some y -> y < 8192) -> route pid = Some q -> (forall x, route x = Some q -> x = pid) ->
  Forall sound l -> remap m route l = Ok out ->
  sent (pat_demux m) 0 ts o -> Forall (eq (mkPat v tsid [mkPatI want q])) ts ->
  Forall (fun pk => length pk = 188%nat /\ bytes pk) (x :: b) -> on 0 x = true -> concat (filter (on 0) (x :: b)) = o -> filter (on q) (x :: b) = filter (on q) out ->
  receive m' (latest_pmt m' want) psi_default pmt_default (filter (on pid) l) = Ok (p, u) ->
  exists p0, tune m' want tuner_new (x :: b) = Ok (mkTuner p0 (mkPat v tsid [mkPatI want q]) p u).
Proof.
  intros m m' v tsid want q route pid l out ts o x b p u Hv Ht Hw Hq Hq0 R1 R2 R3 F E S Fe Fx Ox Eo Eq Rc.
  destruct (remap_table pmt m m' (latest_pmt m' want) route pid q l psi_default pmt_default F R1 R2 R3) as (out' & E' & Rq). rewrite E in E'. injection E' as <-.
  apply (own_tune m v tsid want q Hv Ht Hw Hq ts o x b m' p u Hq0 Fx Ox S Fe Eo). rewrite Eq, Rq. exact Rc.
Qed.
