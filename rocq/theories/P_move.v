(** Proofs: a program moved to other PIDs. *)
From Verif Require Import Prelude Layout Facts Facts2 S_ts S_crc S_utils S_psi M_bytes M_ts M_crc M_utils M_psi M_drive M_recv M_desc S_desc
  M_tables S_tables P_bytes P_ts P_crc P_utils P_psi P_mux P_mux2 P_sect P_mux3 P_desc P_desc2 P_desc3 W_psi W_desc P_tab P_tab2 P_tab3 P_tab4 P_tab5 P_tab6 P_tab7 W_tables
  M_reader S_reader P_reader M_system S_system P_sys P_sys2 W_sys S_packed P_packed M_from M_tune S_tune P_tune M_remux S_remux P_remux W_remux
  S_measure M_restamp S_restamp P_restamp M_move.

(** ** a PMT of one section *)
Definition entries_size (t : pmt) : nat := length (flat_map pmt_entry (pmt_items t)).
Lemma flat_map_concat {A B} (f : A -> list B) gs : flat_map f (concat gs) = concat (map (flat_map f) gs).
Proof. induction gs as [|g gs IH]; [reflexivity|]. cbn [concat map]. rewrite flat_map_app, IH. reflexivity. Qed.
Lemma one_group t g0 gs : pmt_descs t = [] -> (16 + entries_size t <= N.to_nat 1024)%nat -> pmt_items t = g0 ++ concat gs ->
  Forall (fun g => g <> []) gs ->
  filled pmt_entry (N.to_nat 1024) (numbered (pmt_section t (N.of_nat (length gs))) 0 (g0 :: gs)) (g0 :: gs) -> gs = [].
Proof.
  intros D L E F Fl. destruct gs as [|[|x r] gs]; [reflexivity|inversion F; congruence|exfalso].
  specialize (Fl 0%nat _ x r eq_refl eq_refl). revert Fl. unfold pmt_section. cbv zeta. rewrite section_len. cbn [Nat.eqb]. rewrite D.
  rewrite !app_length, layout_length by reflexivity. change (length (wire [])) with 0%nat. unfold entries_size in L. rewrite E in L.
  rewrite flat_map_app, app_length in L. cbn [concat] in L. cbn [flat_map app] in L. rewrite !app_length in L.
  change (fold_right Nat.add 0%nat (map fst [(3%nat, 7); (13%nat, pmt_pcr t); (4%nat, 15); (12%nat, wlen [])])) with 32%nat. tw. lia.
Qed.
Lemma fits_small t : pmt_descs t = [] -> (16 + entries_size t <= N.to_nat 1024)%nat -> pmt_fits (N.to_nat 1024) t.
Proof.
  unfold entries_size. intros D L. split; [rewrite D; change (length (wire [])) with 0%nat; lia|]. apply Forall_forall. intros i Hi.
  apply in_split in Hi as (a & b & E). rewrite E, flat_map_app, app_length in L. cbn [flat_map] in L. rewrite app_length in L. lia.
Qed.
Lemma one_section m t pid cc dst : pmt_ok t -> pmt_descs t = [] -> (16 + entries_size t <= N.to_nat 1024)%nat -> pid < 8192 -> cc < 16 ->
  sends (pmt_demux m t pid cc dst) pid cc dst [pmt_section t 0 0 (pmt_items t)] /\ section_ok (pmt_section t 0 0 (pmt_items t)).
Proof.
  intros H D L Hp Hc. pose proof (fits_small t D L) as F.
  destruct (pmt_demux_spec m t pid cc dst H (fits_more_pmt t F) Hp Hc) as (g0 & gs & E & S & X). cbv zeta in X. destruct X as [X K].
  assert (G : gs = []).
  { destruct (pmt_sized m t pid cc dst H F Hp Hc) as (groups & (G1 & G2 & G3) & G4). cbv zeta in G4. apply (one_group t g0 gs D L E); [apply S|].
    eapply full_filled; [apply S|]. intros i g. unfold pmt_section. cbv zeta. rewrite section_len, !app_length, layout_length by reflexivity. tw. destruct (i =? 0)%nat; [|change (length (wire [])) with 0%nat]; lia. }
  subst gs. cbn [concat] in E. rewrite app_nil_r in E. subst g0. cbn [length] in *. cbn [numbered] in X, K. split; [exact X|]. inversion K; assumption.
Qed.
Lemma section_made t : pmt_ok t -> pmt_descs t = [] -> exact_items pmti_descs (pmt_items t) -> section_ok (pmt_section t 0 0 (pmt_items t)) ->
  let s := pmt_section t 0 0 (pmt_items t) in framed s /\ heard1 id_pmt 8 s = true /\ made 16 pmt_seen pmt_default s t.
Proof.
  intros H D X K s. pose proof H as (H1 & H2 & H3 & H4 & H5). pose proof (pmt_len t 0 0 (pmt_items t)) as L. fold s in L. split; [split; apply K|]. split.
  - unfold heard1. destruct K as (_ & _ & _ & K). fold s in K. rewrite K. rewrite (proj2 (Nat.leb_le 8 (length s))) by lia. unfold s. rewrite (pmt_tables t 0 0 _ H). reflexivity.
  - unfold made. rewrite (proj2 (Nat.leb_le 16 (length s)) L).
    pose proof (pmt_back t 0 0 (pmt_items t) (fun _ => D) H1 H2 H3 H5 X) as B. fold s in B.
    replace (mkPmt (pmt_version t) (pmt_pnr t) (pmt_pcr t) [] (pmt_items t)) with t in B by (rewrite <- D; destruct t; reflexivity). exact B.
Qed.
Lemma latest_sends m t : pmt_ok t -> pmt_descs t = [] -> exact_items pmti_descs (pmt_items t) -> (16 + entries_size t <= N.to_nat 1024)%nat ->
  forall want, sends_as (pmt_demux m) (fun m => latest_pmt m want) (pmt_keep want) t.
Proof.
  intros H D X L want. apply stream_sends. intros pid cc Hp Hc. destruct (one_section m t pid cc [] H D L Hp Hc) as [S K].
  destruct (section_made t H D X K) as (F & Hh & R). exists [pmt_section t 0 0 (pmt_items t)]. split; [constructor; [apply K|constructor]|]. split; [exact S|].
  intros m' p old. rewrite stream_cons. change (stream pid _ []) with (@nil (list N)). rewrite app_nil_r.
  destruct (section_carried pid cc _ F Hc) as (l & E & C & _). rewrite E.
  destruct (receive_runs m' _ _ _ _ (latest_pmt_readable m' want) (concat [l]) [pmt_section t 0 0 (pmt_items t)] [pmt_section t 0 0 (pmt_items t)]) with (p := p) (old := old) (ts := [t]) as [q Eq].
  - apply carried_runs; [constructor; [exact C|constructor]|constructor; [exact F|constructor]].
  - cbn [filter]. rewrite Hh. constructor; [exact R|constructor].
  - cbn [concat] in Eq. rewrite app_nil_r in Eq. exists q. exact Eq.
Qed.

(** ** other PIDs *)
Lemma moved_entry f i : length (pmt_entry (mkPmtI (pmti_type i) (f (pmti_pid i)) (pmti_descs i))) = length (pmt_entry i).
Proof. unfold pmt_entry. rewrite !app_length, !layout_length by reflexivity. reflexivity. Qed.
Lemma moved_size f t : entries_size (moved f t) = entries_size t.
Proof.
  unfold entries_size, moved. cbn [pmt_items]. induction (pmt_items t) as [|i l IH]; [reflexivity|]. cbn [map flat_map]. rewrite !app_length, IH, moved_entry. reflexivity.
Qed.
Lemma moved_sendable f t : pmt_sendable t -> (forall s, In s (streams t) -> f s < 8192) ->
  pmt_ok (moved f t) /\ pmt_descs (moved f t) = [] /\ exact_items pmti_descs (pmt_items (moved f t)).
Proof.
  intros ((H1 & H2 & H3 & H4 & H5) & _ & D & X) R. split; [|split; [exact D|]].
  - split; [exact H1|]. split; [exact H2|]. split; [apply R; left; reflexivity|]. split; [exact H4|]. unfold moved. cbn [pmt_items].
    assert (R' : forall i, In i (pmt_items t) -> f (pmti_pid i) < 8192) by (intros i Hi; apply R; right; apply in_map; exact Hi).
    clear - R' H5. induction H5 as [|i l (I1 & I2 & I3) F IH]; [constructor|]. cbn [map]. constructor.
    + split; [exact I1|]. split; [apply R'; left; reflexivity|exact I3].
    + apply IH. intros j Hj. apply R'. right. exact Hj.
  - unfold moved, exact_items in *. cbn [pmt_items]. apply Forall_map. revert X. apply Forall_impl. intros i Hi. exact Hi.
Qed.
Lemma route_some f t pid q : route_of f t pid = Some q <-> In pid (streams t) /\ q = f pid.
Proof.
  unfold route_of. destruct (existsb (N.eqb pid) (streams t)) eqn:E.
  - apply existsb_exists in E as (x & Hx & E). apply N.eqb_eq in E. subst x. split; [intros H; injection H as <-; auto|intros [_ ->]; reflexivity].
  - split; [discriminate|]. intros [Hx _]. assert (F : existsb (N.eqb pid) (streams t) = true) by (apply existsb_exists; exists pid; split; [exact Hx|apply N.eqb_refl]). congruence.
Qed.

(** ** the clock depends on the packets of its PID *)
Lemma clock_on pid l : forall n n', map fst (clock pid n l) = map fst (clock pid n' (filter (on pid) l)).
Proof.
  induction l as [|pk l IH]; intros n n'; [reflexivity|]. cbn [clock filter]. unfold on at 1. destruct (N.eqb_spec (field pk 11 13) pid) as [E|E]; cbn [andb].
  - cbn [clock]. rewrite E, N.eqb_refl. cbn [andb]. destruct (has_pcr pk); cbn [map fst]; [f_equal|]; apply IH.
  - apply IH.
Qed.
Lemma retag_later q pk : length pk = 188%nat -> has_pcr (retag q pk) = has_pcr pk /\ pcr_of (retag q pk) = pcr_of pk.
Proof.
  intros L. unfold has_pcr, pcr_of. rewrite retag_af. unfold flag, retag. rewrite !behind by lia. auto.
Qed.
Lemma clock_retag q pid l : q < 8192 -> Forall (fun pk => length pk = 188%nat) l -> Forall (fun pk => on pid pk = true) l ->
  forall n, clock q n (map (retag q) l) = clock pid n l.
Proof.
  intros Hq F O. induction F as [|pk l L F IH]; intros n; [reflexivity|]. inversion O as [|? ? O1 O2]; subst. cbn [map clock].
  rewrite (retag_pid q pk Hq), N.eqb_refl. unfold on in O1. rewrite O1. cbn [andb]. destruct (retag_later q pk L) as [-> ->].
  destruct (has_pcr pk); [f_equal|]; apply IH; assumption.
Qed.

Lemma move_program : forall m m' v tsid want q f t l out ts us o0 o1 x b, v < 32 -> tsid < 65536 -> q < 8192 -> q <> 0 ->
  pmt_sendable t -> pmt_pnr t = want -> (16 + entries_size t <= N.to_nat 1024)%nat ->
  (forall s, In s (streams t) -> f s < 8192) -> (forall s s', In s (streams t) -> In s' (streams t) -> f s = f s' -> s = s') ->
  Forall sound l -> remap m (route_of f t) l = Ok out ->
  sent (pat_demux m) 0 ts o0 -> Forall (eq (mkPat v tsid [mkPatI want q])) ts -> sent (pmt_demux m) q us o1 -> Forall (eq (moved f t)) us -> us <> [] ->
  Forall (fun pk => length pk = 188%nat /\ bytes pk) (x :: b) -> on 0 x = true -> concat (filter (on 0) (x :: b)) = o0 -> concat (filter (on q) (x :: b)) = o1 ->
  (forall s, In s (streams t) -> filter (on (f s)) (x :: b) = filter (on (f s)) out) ->
  (exists p0 p, tune m' want tuner_new (x :: b) = Ok (mkTuner p0 (mkPat v tsid [mkPatI want q]) p (moved f t))) /\
  (forall s, In s (streams t) -> filter (on (f s)) (x :: b) = map (retag (f s)) (filter (on s) l)) /\
  exists c c', observe m' (pmt_pcr t) 0 l = Ok c /\ observe m' (pmt_pcr (moved f t)) 0 (x :: b) = Ok c' /\ map fst c' = map fst c.
Proof.
  intros m m' v tsid want q f t l out ts us o0 o1 x b Hv Ht Hq Hq0 St Hw Sz R I F E S0 F0 S1 F1 N1 Fx Ox E0 E1 Es.
  assert (Rr : forall x y, route_of f t x = Some y -> y < 8192) by (intros y z Hz; apply route_some in Hz as [Hz ->]; apply R; exact Hz).
  assert (Eo : out = routed (route_of f t) l) by (rewrite (remap_spec m _ l F Rr) in E; congruence).
  assert (G : forall s, In s (streams t) -> filter (on (f s)) (x :: b) = map (retag (f s)) (filter (on s) l)).
  { intros s Hs. rewrite (Es s Hs), Eo. apply routed_on; [exact Rr|apply route_some; auto|].
    intros y Hy. apply route_some in Hy as [Hy Hy']. symmetry in Hy'. apply I; assumption. }
  destruct (moved_sendable f t St R) as (M1 & M2 & M3).
  assert (M4 : forall w, sends_as (pmt_demux m) (fun m => latest_pmt m w) (pmt_keep w) (moved f t)).
  { intros w. apply (latest_sends m (moved f t) M1 M2 M3). rewrite moved_size. exact Sz. }
  split; [|split; [exact G|]].
  - assert (Fs : Forall (sends_as (pmt_demux m) (fun m => latest_pmt m want) (pmt_keep want)) us) by (eapply Forall_impl; [|exact F1]; intros y <-; apply M4).
    destruct (sent_receive _ _ _ q us o1 Hq Fs S1) as (pks & Ep & Lp & Rp).
    assert (X : filter (on q) (x :: b) = pks).
    { apply concat_inj; [|exact Lp|congruence]. rewrite Forall_forall in *. intros y Hy. apply filter_In in Hy as [Hy _]. apply Fx. exact Hy. }
    destruct (Rp m' psi_default pmt_default) as [p Er]. cbv beta in Er. rewrite <- X in Er.
    assert (Hlast : fold_left (pmt_keep want) us pmt_default = moved f t).
    { rewrite keep_fold. assert (Hf : filter (fun u => pmt_pnr u =? want) us = us).
      { clear - F1 Hw. induction F1 as [|y us <- F1 IH]; [reflexivity|]. cbn [filter]. rewrite IH. cbn [moved pmt_pnr]. rewrite Hw, N.eqb_refl. reflexivity. }
      rewrite Hf. destruct us as [|y us]; [congruence|]. inversion F1 as [|? ? <- F1']; subst. rewrite last_cons. apply last_same. exact F1'. }
    rewrite Hlast in Er. assert (Hw' : want < 65536) by (rewrite <- Hw; apply St).
    destruct (own_tune m v tsid want q Hv Ht Hw' Hq ts o0 x b m' p (moved f t) Hq0 Fx Ox S0 F0 E0 Er) as [p0 Et]. exists p0, p. exact Et.
  - assert (Fl : Forall (fun pk => length pk = 188%nat /\ bytes pk) l) by (revert F; apply Forall_impl; intros y (Y1 & Y2 & _); auto).
    exists (clock (pmt_pcr t) 0 l), (clock (f (pmt_pcr t)) 0 (x :: b)). split; [apply observe_spec; exact Fl|]. split; [apply observe_spec; exact Fx|].
    rewrite (clock_on _ (x :: b) 0 0), (clock_on (pmt_pcr t) l 0 0). assert (Hp : In (pmt_pcr t) (streams t)) by (left; reflexivity).
    rewrite (G _ Hp), (clock_retag (f (pmt_pcr t)) (pmt_pcr t)); [reflexivity|apply R; exact Hp| |].
    + apply Forall_forall. intros y Hy. apply filter_In in Hy as [Hy _]. rewrite Forall_forall in Fl. apply Fl. exact Hy.
    + apply Forall_forall. intros y Hy. apply filter_In in Hy. apply Hy.
Qed.
