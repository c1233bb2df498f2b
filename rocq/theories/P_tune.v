(** Proofs: receivers that keep the latest table. *)
From Verif Require Import Prelude Layout Facts Facts2 S_ts S_crc S_utils S_psi M_bytes M_ts M_crc M_utils M_psi M_drive M_recv M_desc S_desc
  M_tables S_tables P_bytes P_ts P_crc P_utils P_psi P_mux P_mux2 P_sect P_mux3 P_desc P_desc2 P_desc3 W_psi W_desc P_tab P_tab2 P_tab5 P_tab6 P_tab7 W_tables
  M_reader S_reader P_reader M_system S_system P_sys P_sys2 S_packed P_packed S_loss P_loss S_join P_join M_from M_tune S_tune.

(** ** the latest table *)
Lemma latest_spec {T} ids (from : psi -> res T) old p : consistent p ->
  (accepted (fun b => ids b = true) 8 p -> latest ids from old p = from p) /\ (~ accepted (fun b => ids b = true) 8 p -> latest ids from old p = Ok old).
Proof.
  intros [B C]. unfold latest, accepted. rewrite (psi_check_spec p B). cbn [bind].
  destruct (Nat.ltb_spec 7 (p_size p)) as [H1|H1]; cbn [andb]; [|split; [intros; lia|reflexivity]].
  destruct (Nat.leb_spec (p_size p) (length (p_buffer p))) as [H2|H2]; cbn [andb]; [|split; [intros; lia|reflexivity]].
  destruct (N.eqb_spec (crc_spec (firstn (p_size p) (p_buffer p))) 0) as [H3|H3]; [|split; [intros; tauto|reflexivity]].
  rewrite get_field by (try assumption; lia). cbn [bind Nat.mul Nat.add].
  destruct (ids (field (p_buffer p) 0 8)) eqn:E; split; intros H; try reflexivity; exfalso.
  - apply H. split; [lia|auto].
  - destruct H as (_ & H & _). discriminate.
Qed.
Lemma latest_passes {T} ids (from : psi -> res T) : forall t p, consistent p -> ~ accepted (fun b => ids b = true) 8 p -> latest ids from t p = Ok t.
Proof. intros t p C H. apply latest_spec; assumption. Qed.
Lemma has_accepted (ids : N -> bool) s extra i cc : framed s -> bytes extra -> heard1 ids 8 s = true ->
  let p := mkPsi (s ++ extra) (length s) i cc in consistent p /\ accepted (fun b => ids b = true) 8 p.
Proof.
  intros F B E p. pose proof (framed_len s F) as L. unfold heard1 in E. rewrite !andb_true_iff, Nat.leb_le, N.eqb_eq in E. destruct E as [[E1 E2] E3]. split.
  - split; [apply bytes_app; split; [apply F|assumption]|]. right. cbn [p p_buffer p_size]. rewrite app_length. split; [lia|].
    rewrite section_length_app by assumption. apply F.
  - split; cbn [p p_buffer p_size]; [rewrite app_length; lia|]. rewrite firstn_app, firstn_all, Nat.sub_diag, firstn_O, app_nil_r.
    rewrite field_prefix by lia. auto.
Qed.
Lemma latest_readable {T} (parse : T -> psi -> res T) ids min rd add dflt : (8 <= min)%nat -> readable parse (heard1 ids min) rd add -> (forall u, add dflt u = u) ->
  readable (latest ids (parse dflt)) (heard1 ids 8) (made min rd dflt) (fun _ u => u).
Proof.
  intros Hm (X1 & X2 & _) Hd. split; [|split].
  - intros t s extra u i cc F B E R. destruct (has_accepted ids s extra i cc F B E) as [C A]. rewrite (proj1 (latest_spec ids _ t _ C) A).
    unfold made in R. unfold heard1 in E. rewrite !andb_true_iff, Nat.leb_le, N.eqb_eq in E. destruct E as [[E1 E2] E3].
    destruct (Nat.leb_spec min (length s)) as [L|L].
    + rewrite (X1 dflt s extra u i cc F B); [rewrite Hd; reflexivity| |exact R]. unfold heard1. rewrite E2, E3, (proj2 (Nat.leb_le _ _) L). reflexivity.
    + subst u. apply X2; try assumption. unfold heard1. rewrite (proj2 (Nat.leb_gt _ _) L). reflexivity.
  - apply (heard_pass _ _ (fun b => ids b = true)); [reflexivity|apply latest_passes].
  - intros s F. apply (waits_pass _ (fun b => ids b = true) 8%nat); [lia|apply latest_passes|exact F].
Qed.
Lemma last_fold {T} (ts : list T) : forall old, fold_left (fun _ u => u) ts old = last ts old.
Proof. induction ts as [|t ts IH]; intros old; [reflexivity|]. cbn [fold_left]. rewrite IH. symmetry. apply last_cons. Qed.

Lemma carried_runs ls ss : Forall2 carries ls ss -> Forall framed ss -> runs (concat ls) ss ss.
Proof.
  induction 1 as [|l s ls ss C H IH]; intros F; [constructor|]. inversion F; subst. cbn [concat]. constructor; auto.
Qed.
Lemma latest_run {T} (parse : T -> psi -> res T) ids min rd add dflt : (8 <= min)%nat -> readable parse (heard1 ids min) rd add -> (forall u, add dflt u = u) ->
  forall m p old ls ss ts, Forall2 carries ls ss -> Forall framed ss -> Forall2 (made min rd dflt) (filter (heard1 ids 8) ss) ts ->
  exists q, receive m (latest ids (parse dflt)) p old (map encode (concat ls)) = Ok (q, last ts old).
Proof.
  intros Hm X Hd m p old ls ss ts C F R. rewrite <- last_fold.
  exact (receive_runs m _ _ _ _ (latest_readable parse ids min rd add dflt Hm X Hd) _ _ _ (carried_runs ls ss C F) p old ts R).
Qed.
Lemma latest_loss {T} (parse : T -> psi -> res T) ids min rd add dflt : (8 <= min)%nat -> readable parse (heard1 ids min) rd add -> (forall u, add dflt u = u) ->
  forall m p l xs cc t ts, p_buffer p = [] -> p_size p = 0%nat -> p_cc p < 16 -> rest_of_section l -> Forall (fun k => k_cc k <> (p_cc p + 1) mod 16) l ->
    transmitted xs -> counted cc (sent_packets (on_the_way xs)) -> gaps_show Nothing (on_the_way xs) -> Forall2 (made min rd dflt) (filter (heard1 ids 8) (intact xs)) ts ->
    exists q, receive m (latest ids (parse dflt)) p t (map encode (l ++ arrived (on_the_way xs))) = Ok (q, last ts t).
Proof.
  intros Hm X Hd m p l xs cc t ts H1 H2 H3 H4 H5 H6 H7 H8 R. rewrite <- last_fold.
  exact (joined_clean m _ _ _ _ (latest_readable parse ids min rd add dflt Hm X Hd) p l xs cc t ts H1 H2 H3 H4 H5 H6 H7 H8 R).
Qed.

(** ** packets without payload *)
Lemma latest_settles {T} ids (from : psi -> res T) t p u : latest ids from t p = Ok u -> latest ids from u p = Ok u.
Proof.
  unfold latest. destruct (psi_check p) as [[]| |]; cbn [bind]; try discriminate; [|congruence].
  destruct (get (p_buffer p) 0) as [b| |]; cbn [bind]; try discriminate. destruct (ids b); [auto|congruence].
Qed.
Lemma idle_receive {T} m ids (from : psi -> res T) l : forall p t, Forall packet_ok l -> latest ids from t p = Ok t ->
  receive m (latest ids from) p t (map encode l) = receive m (latest ids from) p t (map encode (filter k_haspl l)).
Proof.
  induction l as [|k l IH]; intros p t F S; [reflexivity|]. inversion F as [|? ? F1 F2]; subst. cbn [map receive filter].
  destruct (k_haspl k) eqn:E.
  - cbn [map receive]. destruct (psi_mux m p (encode k)) as [q| |]; cbn [bind]; try reflexivity.
    destruct (latest ids from t q) as [u| |] eqn:G; cbn [bind]; try reflexivity. apply IH; [assumption|]. exact (latest_settles ids from t q u G).
  - pose proof (mux_all_nopl m p [k] ltac:(constructor; [auto|constructor])) as M. cbn [map mux_all] in M. apply bind_inv in M as (q & Eq & M). injection M as ->.
    rewrite Eq. cbn [bind]. rewrite S. cbn [bind]. apply IH; assumption.
Qed.

(** ** the PMT of a program *)
Definition pmt_keep (want : N) (old u : pmt) : pmt := if pmt_pnr u =? want then u else old.
Lemma latest_pmt_readable m want : readable (latest_pmt m want) (heard1 id_pmt 8) (made 16 pmt_seen pmt_default) (pmt_keep want).
Proof.
  destruct (latest_readable (pmt_parse m) id_pmt 16 pmt_seen pmt_add pmt_default ltac:(lia) (pmt_readable m) ltac:(intros []; reflexivity)) as (X1 & X2 & X3).
  split; [|split].
  - intros t s extra u i cc F B E R. unfold latest_pmt. change (fun b => b =? 2) with id_pmt. change (pmt_from m) with (pmt_parse m pmt_default).
    rewrite (X1 t s extra u i cc F B E R). reflexivity.
  - intros t s extra i cc F B E. unfold latest_pmt. change (fun b => b =? 2) with id_pmt. change (pmt_from m) with (pmt_parse m pmt_default).
    rewrite (X2 t s extra i cc F B E). cbn [bind]. destruct (pmt_pnr t =? want); reflexivity.
  - intros s F t p d r E Hr Hh. unfold latest_pmt. change (fun b => b =? 2) with id_pmt. change (pmt_from m) with (pmt_parse m pmt_default).
    rewrite (X3 s F t p d r E Hr Hh). cbn [bind]. destruct (pmt_pnr t =? want); reflexivity.
Qed.
Lemma keep_fold want us : forall old, fold_left (pmt_keep want) us old = last (filter (fun u => pmt_pnr u =? want) us) old.
Proof.
  induction us as [|u us IH]; intros old; [reflexivity|]. cbn [fold_left filter]. rewrite IH. unfold pmt_keep.
  destruct (pmt_pnr u =? want); [rewrite last_cons; reflexivity|reflexivity].
Qed.

(** ** the PAT, while it gives the program the same PID *)
Definition watch (m : mode) (want : N) (t : option pat) (p : psi) : res (option pat) :=
  match t with
  | None => Ok None
  | Some a => a' <- latest id_pat (pat_from m) a p ;; Ok (if same_pid (prog_pid want a') (prog_pid want a) then Some a' else None)
  end.
Lemma same_refl a : same_pid a a = true.
Proof. destruct a; [apply N.eqb_refl|reflexivity]. Qed.
Lemma same_eq a b : same_pid a b = true <-> a = b.
Proof.
  destruct a as [a|], b as [b|]; cbn [same_pid]; try (split; congruence). rewrite N.eqb_eq. split; congruence.
Qed.
Definition watch_add (want : N) (t u : option pat) : option pat :=
  match t, u with Some a, Some b => if same_pid (prog_pid want b) (prog_pid want a) then Some b else None | _, _ => None end.
Definition watch_rd (s : list N) (u : option pat) : Prop := match u with Some b => made 12 pat_reads pat_default s b | None => False end.
Lemma watch_readable m want : readable (watch m want) (heard1 id_pat 8) watch_rd (watch_add want).
Proof.
  destruct (latest_readable (pat_parse m) id_pat 12 pat_reads pat_add pat_default ltac:(lia) (pat_readable m) ltac:(intros []; reflexivity)) as (X1 & X2 & X3).
  split; [|split].
  - intros [a|] s extra [u|] i cc F B E R; try contradiction; [|reflexivity]. unfold watch. change (pat_from m) with (pat_parse m pat_default).
    rewrite (X1 a s extra u i cc F B E R). reflexivity.
  - intros [a|] s extra i cc F B E; [|reflexivity]. unfold watch. change (pat_from m) with (pat_parse m pat_default).
    rewrite (X2 a s extra i cc F B E). cbn [bind]. rewrite same_refl. reflexivity.
  - intros s F [a|] p d r E Hr Hh; [|reflexivity]. unfold watch. change (pat_from m) with (pat_parse m pat_default).
    rewrite (X3 s F a p d r E Hr Hh). cbn [bind]. rewrite same_refl. reflexivity.
Qed.
Lemma watch_fold want ts : forall a, Forall (fun t => prog_pid want t = prog_pid want a) ts ->
  fold_left (watch_add want) (map Some ts) (Some a) = Some (last ts a).
Proof.
  induction ts as [|t ts IH]; intros a F; [reflexivity|]. inversion F as [|? ? F1 F2]; subst. cbn [map fold_left watch_add].
  rewrite (proj2 (same_eq _ _) F1), last_cons. apply IH. revert F2. apply Forall_impl. congruence.
Qed.
Lemma watch_rds ss ts : Forall2 (made 12 pat_reads pat_default) ss ts -> Forall2 watch_rd ss (map Some ts).
Proof. induction 1; constructor; auto. Qed.
Lemma watch_none m want l : forall p q x, receive m (watch m want) p None l = Ok (q, x) -> x = None.
Proof.
  induction l as [|k l IH]; intros p q x E; cbn [receive] in E; [congruence|]. destruct (psi_mux m p k) as [p'| |]; cbn [bind] in E; try discriminate.
  exact (IH _ _ _ E).
Qed.

(** ** the tuner keeps its PID *)
Lemma tune_app m want a : forall u b, tune m want u (a ++ b) = (u <- tune m want u a ;; tune m want u b).
Proof.
  induction a as [|x a IH]; intros u b; [reflexivity|]. cbn [app tune]. destruct (tune_packet m want u x); cbn [bind]; [apply IH|reflexivity|reflexivity].
Qed.
Lemma tune_split m want pks : forall u q1 a q2 t, Forall (fun pk => (3 <= length pk)%nat /\ bytes pk) pks ->
  receive m (watch m want) (u_pat_psi u) (Some (u_pat u)) (filter (on 0) pks) = Ok (q1, Some a) ->
  match prog_pid want (u_pat u) with
  | Some pid => pid <> 0 /\ receive m (latest_pmt m want) (u_pmt_psi u) (u_pmt u) (filter (on pid) pks) = Ok (q2, t)
  | None => q2 = u_pmt_psi u /\ t = u_pmt u
  end ->
  tune m want u pks = Ok (mkTuner q1 a q2 t).
Proof.
  induction pks as [|pk pks IH]; intros u q1 a q2 t F E1 E2.
  - cbn [filter receive] in *. injection E1 as <- <-. cbn [tune]. destruct u as [u1 u2 u3 u4]. cbn [u_pat_psi u_pat u_pmt_psi u_pmt] in *.
    destruct (prog_pid want u2); [destruct E2 as [_ E2]; injection E2 as <- <-; reflexivity|destruct E2 as [-> ->]; reflexivity].
  - inversion F as [|? ? [L B] F']; subst. cbn [tune]. unfold tune_packet. rewrite (get_pid_spec pk L B). cbn [bind filter] in *. unfold on in E1 at 1.
    destruct (N.eqb_spec (field pk 11 13) 0) as [H|H].
    + cbn [receive] in E1. destruct (psi_mux m (u_pat_psi u) pk) as [q| |]; cbn [bind] in E1 |- *; try discriminate.
      unfold watch in E1 at 1. change (fun b => b =? 0) with id_pat.
      destruct (latest id_pat (pat_from m) (u_pat u) q) as [a'| |] eqn:G; cbn [bind] in E1 |- *; try discriminate.
      destruct (same_pid (prog_pid want a') (prog_pid want (u_pat u))) eqn:S; [|apply watch_none in E1; discriminate].
      apply IH; cbn [u_pat_psi u_pat u_pmt_psi u_pmt]; [assumption|exact E1|]. apply same_eq in S. rewrite S.
      destruct (prog_pid want (u_pat u)) as [pid|]; [|exact E2]. destruct E2 as [Hp E2]. split; [exact Hp|].
      unfold on in E2 at 1. rewrite H in E2. destruct (N.eqb_spec 0 pid); [congruence|exact E2].
    + destruct (prog_pid want (u_pat u)) as [pid|] eqn:P; cbn [same_pid].
      * destruct E2 as [Hp E2]. unfold on in E2 at 1. destruct (N.eqb_spec (field pk 11 13) pid) as [K|K].
        -- cbn [receive] in E2. destruct (psi_mux m (u_pmt_psi u) pk) as [q| |]; cbn [bind] in E2 |- *; try discriminate.
           destruct (latest_pmt m want (u_pmt u) q) as [t'| |]; cbn [bind] in E2 |- *; try discriminate.
           apply IH; cbn [u_pat_psi u_pat u_pmt_psi u_pmt]; [assumption|exact E1|]. rewrite P. auto.
        -- cbn [bind]. apply IH; [assumption|exact E1|]. rewrite P. auto.
      * cbn [bind]. apply IH; [assumption|exact E1|]. rewrite P. exact E2.
Qed.

(** ** the packets before the last one of a section *)
Lemma receive_before {T} m (parse : T -> psi -> res T) p t l k s : framed s -> carries (l ++ [k]) s -> waits parse s ->
  exists q, receive m parse p t (map encode l) = Ok (q, t).
Proof.
  intros F (k0 & ks & c & st & E & Hk & Hpl & Hpu & Hpay & Hc & H3 & Hall & Hinc) W.
  destruct l as [|k1 l]; [exists p; reflexivity|]. injection E as -> E.
  assert (X : forall n, exists p', mux_all m p (map encode (k0 :: firstn n ks)) = Ok p' /\ holds p' (c ++ carried (firstn n ks))).
  { intros n. destruct (mux_legal m p [] k0 (firstn n ks) [] c) as (p' & E' & Hh & _); try assumption.
    - constructor.
    - cbn. lia.
    - left. reflexivity.
    - apply continues_firstn. assumption.
    - destruct (Nat.le_gt_cases (length ks) n) as [L|L]; [rewrite firstn_all2 by assumption; assumption|].
      rewrite <- (firstn_skipn n ks) in H3. rewrite filter_app in H3. destruct (filter k_haspl (firstn n ks)); [exact I|exact H3].
    - exists p'. auto. }
  assert (Z : forall n q, (n < length ks)%nat -> holds q (c ++ carried (firstn n ks)) -> parse t q = Ok t).
  { intros n q Ln Hh. pose proof (Hinc n Ln) as L0. set (d := c ++ carried (firstn n ks)) in *.
    apply (W t q d (skipn (length d) s)); [|apply skipn_ne; assumption|exact Hh].
    transitivity (firstn (length d) s ++ skipn (length d) s); [symmetry; apply firstn_skipn|]. f_equal.
    transitivity (firstn (length d) (s ++ st)); [rewrite firstn_app; replace (length d - length s)%nat with 0%nat by lia; rewrite firstn_O, app_nil_r; reflexivity|].
    rewrite <- Hall. rewrite <- (firstn_skipn n ks) at 1. rewrite carried_app, app_assoc. fold d.
    rewrite firstn_app, Nat.sub_diag, firstn_all, firstn_O, app_nil_r. reflexivity. }
  assert (Y : forall n, (n < length ks)%nat -> exists q, mux_all m p (map encode (k0 :: firstn n ks)) = Ok q /\
       receive m parse p t (map encode (k0 :: firstn n ks)) = Ok (q, t)).
  { induction n as [|n IH]; intros Ln; destruct (X 0%nat) as (q0 & E0 & Hh0).
    - exists q0. split; [assumption|]. cbn [firstn map mux_all receive] in *. apply bind_inv in E0 as (q1 & -> & E0). injection E0 as ->. cbn [bind].
      rewrite (Z 0%nat q0 Ln Hh0). reflexivity.
    - clear q0 E0 Hh0. destruct (IH ltac:(lia)) as (q0 & E0 & R0). destruct (X (S n)) as (q & Eq & Hh). exists q. split; [assumption|].
      pose proof (Z (S n) q Ln Hh) as Zq.
      rewrite (snoc_firstn ks n k0) in Eq |- * by lia. rewrite app_comm_cons, map_app in Eq |- *. rewrite receive_app, R0.
      rewrite mux_all_app, E0 in Eq. cbn [bind mux_all map receive] in *.
      apply bind_inv in Eq as (q1 & -> & Eq). injection Eq as ->. cbn [bind]. rewrite Zq. reflexivity. }
  destruct (Y (length l)) as (q & _ & R); [rewrite <- E, app_length; cbn [length]; lia|].
  exists q. rewrite <- E, firstn_app, Nat.sub_diag, firstn_all, firstn_O, app_nil_r in R. exact R.
Qed.

Lemma last_packet {T} m (parse : T -> psi -> res T) p t l k s q u : framed s -> carries (l ++ [k]) s -> waits parse s ->
  receive m parse p t (map encode l) = Ok (q, t) -> (forall i cc, parse t (mkPsi s (length s) i cc) = Ok u) ->
  exists cc, psi_mux m q (encode k) = Ok (mkPsi s (length s) (p_pid p) cc).
Proof.
  intros F C W E U. destruct (receive_carried m parse p t (l ++ [k]) s F C (or_intror W)) as (cc & _ & G). cbv zeta in G.
  rewrite map_app, receive_app, E, U in G. cbn [bind map receive] in G. exists cc.
  destruct (psi_mux m q (encode k)) as [q'| |]; cbn [bind] in G; try discriminate.
  destruct (parse t q') as [w| |]; cbn [bind] in G; try discriminate. injection G as -> _. reflexivity.
Qed.
Lemma latest_whole m a s t i cc : framed s -> heard1 id_pat 8 s = true -> made 12 pat_reads pat_default s t ->
  latest id_pat (pat_from m) a (mkPsi s (length s) i cc) = Ok t.
Proof.
  intros Fs Hs Rt.
  destruct (latest_readable (pat_parse m) id_pat 12 pat_reads pat_add pat_default ltac:(lia) (pat_readable m) ltac:(intros []; reflexivity)) as (Y1 & _ & _).
  pose proof (Y1 a s [] t i cc Fs ltac:(constructor) Hs Rt) as Z. rewrite app_nil_r in Z. exact Z.
Qed.
Lemma watch_whole m want a s t i cc : framed s -> heard1 id_pat 8 s = true -> made 12 pat_reads pat_default s t ->
  watch m want (Some a) (mkPsi s (length s) i cc) = Ok (if same_pid (prog_pid want t) (prog_pid want a) then Some t else None).
Proof. intros Fs Hs Rt. unfold watch. rewrite (latest_whole m a s t i cc Fs Hs Rt). reflexivity. Qed.

Lemma pat_step m want q0 a0 q2 t2 x q t : (3 <= length x)%nat -> bytes x -> on 0 x = true -> psi_mux m q0 x = Ok q ->
  latest id_pat (pat_from m) a0 q = Ok t -> prog_pid want t <> prog_pid want a0 ->
  tune_packet m want (mkTuner q0 a0 q2 t2) x = Ok (mkTuner q t psi_default pmt_default).
Proof.
  intros L B O E1 E2 Ne. unfold tune_packet. rewrite (get_pid_spec _ L B). cbn [bind u_pat_psi u_pat u_pmt_psi u_pmt]. unfold on in O. rewrite O, E1. cbn [bind].
  change (fun b => b =? 0) with id_pat. rewrite E2. cbn [bind].
  destruct (same_pid (prog_pid want t) (prog_pid want a0)) eqn:S; [apply same_eq in S; congruence|reflexivity].
Qed.
(** ** the tuner changes its PID *)
Lemma tune_moves m want u a1 x ls ss ts l k s t : Forall (fun pk => (3 <= length pk)%nat /\ bytes pk) (a1 ++ [x]) ->
  filter (on 0) a1 = map encode (concat ls ++ l) -> on 0 x = true -> x = encode k ->
  Forall2 carries ls ss -> Forall framed ss -> carries (l ++ [k]) s -> framed s ->
  Forall2 (made 12 pat_reads pat_default) (filter (heard1 id_pat 8) ss) ts -> heard1 id_pat 8 s = true -> made 12 pat_reads pat_default s t ->
  Forall (fun t => prog_pid want t = prog_pid want (u_pat u)) ts ->
  match prog_pid want (u_pat u) with
  | Some pid => pid <> 0 /\ exists r, receive m (latest_pmt m want) (u_pmt_psi u) (u_pmt u) (filter (on pid) a1) = Ok r
  | None => True
  end ->
  prog_pid want t <> prog_pid want (u_pat u) ->
  exists q, tune m want u (a1 ++ [x]) = Ok (mkTuner q t psi_default pmt_default).
Proof.
  intros F Ea Ox -> C Fr Cl Fs R Hs Rt Ag Pm Ne. apply Forall_app in F as [F1 F2]. inversion F2 as [|? ? [L B] _]; subst.
  pose proof (watch_readable m want) as X. pose proof X as (_ & _ & X3).
  destruct (receive_runs m _ _ _ _ X _ _ _ (carried_runs ls ss C Fr) (u_pat_psi u) (Some (u_pat u)) (map Some ts) (watch_rds _ _ R)) as [q0 E0].
  rewrite (watch_fold want ts (u_pat u) Ag) in E0. set (a0 := last ts (u_pat u)) in *.
  destruct (receive_before m (watch m want) q0 (Some a0) l k s Fs Cl (X3 s Fs)) as [q1 E1].
  assert (Ew : receive m (watch m want) (u_pat_psi u) (Some (u_pat u)) (filter (on 0) a1) = Ok (q1, Some a0)).
  { rewrite Ea, map_app, receive_app, E0. cbn [bind]. exact E1. }
  assert (Pa : prog_pid want a0 = prog_pid want (u_pat u)).
  { subst a0. clear - Ag. induction ts as [|y ts IH] using rev_ind; [reflexivity|]. rewrite last_last. apply Forall_app in Ag as [_ Ag]. inversion Ag; subst. assumption. }
  destruct (last_packet m (watch m want) q0 (Some a0) l k s q1 _ Fs Cl (X3 s Fs) E1 (fun i cc => watch_whole m want a0 s t i cc Fs Hs Rt)) as (cc & Ek).
  pose proof (latest_whole m a0 s t (p_pid q0) cc Fs Hs Rt) as El. set (q := mkPsi s (length s) (p_pid q0) cc) in *. exists q.
  assert (Et : exists q2 t2, tune m want u a1 = Ok (mkTuner q1 a0 q2 t2)).
  { destruct (prog_pid want (u_pat u)) as [pid|] eqn:P.
    - destruct Pm as (Hp & [r1 r2] & Er). exists r1, r2. apply tune_split; [assumption|exact Ew|]. rewrite P. auto.
    - exists (u_pmt_psi u), (u_pmt u). apply tune_split; [assumption|exact Ew|]. rewrite P. auto. }
  destruct Et as (q2 & t2 & Et). rewrite tune_app, Et. cbn [bind tune].
  rewrite (pat_step m want q1 a0 q2 t2 (encode k) q t L B Ox Ek El) by congruence. reflexivity.
Qed.
Lemma tune_locked m want u pid b ls ss ts : Forall (fun pk => (3 <= length pk)%nat /\ bytes pk) b ->
  prog_pid want (u_pat u) = Some pid -> pid <> 0 ->
  filter (on 0) b = map encode (concat ls) -> Forall2 carries ls ss -> Forall framed ss ->
  Forall2 (made 12 pat_reads pat_default) (filter (heard1 id_pat 8) ss) ts -> Forall (fun t => prog_pid want t = Some pid) ts ->
  forall q2 t2, receive m (latest_pmt m want) (u_pmt_psi u) (u_pmt u) (filter (on pid) b) = Ok (q2, t2) ->
  exists q1, tune m want u b = Ok (mkTuner q1 (last ts (u_pat u)) q2 t2).
Proof.
  intros F P Hp Eb C Fr R Ag q2 t2 E2.
  destruct (receive_runs m _ _ _ _ (watch_readable m want) _ _ _ (carried_runs ls ss C Fr) (u_pat_psi u) (Some (u_pat u)) (map Some ts) (watch_rds _ _ R)) as [q0 E0].
  rewrite watch_fold in E0 by (rewrite P; exact Ag). exists q0. apply tune_split; [assumption|rewrite Eb; exact E0|]. rewrite P. auto.
Qed.

(** ** from the change of the PID on: the PMT of the program *)
Lemma tune_service m want u pid b ls ss ts l xs cc us : Forall (fun pk => (3 <= length pk)%nat /\ bytes pk) b ->
  prog_pid want (u_pat u) = Some pid -> pid <> 0 -> u_pmt_psi u = psi_default ->
  filter (on 0) b = map encode (concat ls) -> Forall2 carries ls ss -> Forall framed ss ->
  Forall2 (made 12 pat_reads pat_default) (filter (heard1 id_pat 8) ss) ts -> Forall (fun t => prog_pid want t = Some pid) ts ->
  filter (on pid) b = map encode (l ++ arrived (on_the_way xs)) -> rest_of_section l -> Forall (fun k => k_cc k <> 1) l ->
  transmitted xs -> counted cc (sent_packets (on_the_way xs)) -> gaps_show Nothing (on_the_way xs) ->
  Forall2 (made 16 pmt_seen pmt_default) (filter (heard1 id_pmt 8) (intact xs)) us ->
  exists q1 q2, tune m want u b = Ok (mkTuner q1 (last ts (u_pat u)) q2 (last (filter (fun t => pmt_pnr t =? want) us) (u_pmt u))).
Proof.
  intros F P Hp Ed Eb C Fr R Ag Ep Hl Nl T1 C1 G1 R1.
  destruct (joined_clean m _ _ _ _ (latest_pmt_readable m want) (u_pmt_psi u) l xs cc (u_pmt u) us) as [q2 E2]; try assumption; try (rewrite Ed; reflexivity).
  { rewrite Ed. exact Nl. }
  rewrite keep_fold in E2. rewrite <- Ep in E2.
  destruct (tune_locked m want u pid b ls ss ts F P Hp Eb C Fr R Ag q2 _ E2) as [q1 E]. exists q1, q2. exact E.
Qed.
(** a PAT that is added to *)
Lemma stale want ts : forall old pid, prog_pid want old = Some pid -> prog_pid want (fold_left pat_add ts old) = Some pid.
Proof.
  induction ts as [|t ts IH]; intros old pid E; [exact E|]. cbn [fold_left]. apply IH. unfold prog_pid in *. cbn [pat_add pat_items].
  induction (pat_items old) as [|i l IHl]; cbn [find app] in *; [discriminate|]. destruct (pati_pnr i =? want); [exact E|exact (IHl E)].
Qed.
Lemma split_tail {A B} (f : B -> bool) (g : A -> B) a c l k : f (g k) = true -> filter f (a ++ [g k]) = map g (c ++ l ++ [k]) -> filter f a = map g (c ++ l).
Proof.
  intros O E. rewrite filter_app in E. cbn [filter] in E. rewrite O in E. rewrite app_assoc, map_app in E. cbn [map] in E.
  apply app_inj_tail in E as [E _]. exact E.
Qed.
Lemma moves : forall m want u a k ls ss ts l s t, Forall (fun pk => (3 <= length pk)%nat /\ bytes pk) (a ++ [encode k]) ->
  filter (on 0) (a ++ [encode k]) = map encode (concat ls ++ l ++ [k]) -> on 0 (encode k) = true ->
  Forall2 carries ls ss -> Forall framed ss -> carries (l ++ [k]) s -> framed s -> Forall2 (made 12 pat_reads pat_default) (filter (heard1 id_pat 8) ss) ts ->
  Forall2 (made 12 pat_reads pat_default) (filter (heard1 id_pat 8) [s]) [t] ->
  Forall (fun t => prog_pid want t = prog_pid want (u_pat u)) ts -> prog_pid want t <> prog_pid want (u_pat u) ->
  match prog_pid want (u_pat u) with
  | Some pid => pid <> 0 /\ exists r, receive m (latest_pmt m want) (u_pmt_psi u) (u_pmt u) (filter (on pid) a) = Ok r
  | None => True
  end ->
  exists q, tune m want u (a ++ [encode k]) = Ok (mkTuner q t psi_default pmt_default).
Proof.
  intros m want u a k ls ss ts l s t F E O C Fr Cl Fs R Rt Ag Ne Pm.
  pose proof (split_tail (on 0) encode a (concat ls) l k O E) as E'.
  cbn [filter] in Rt. destruct (heard1 id_pat 8 s) eqn:H; [|inversion Rt].
  inversion Rt as [|? ? ? ? R1 _]; subst. exact (tune_moves m want u a (encode k) ls ss ts l k s t F E' O eq_refl C Fr Cl Fs R H R1 Ag Pm Ne).
Qed.
