(** Proofs: event guides (present/following and schedules) on one PID. *)
From Verif Require Import Prelude Layout Facts Facts2 S_ts S_crc S_utils S_psi M_ts M_psi M_drive M_recv M_desc S_desc M_tables S_tables
  M_reader S_reader M_system S_system P_sys2 P_eit P_eit2 P_eit3 P_eit5 P_reader P_sys P_tab P_tab2 P_tab3 P_mux3 W_tables W_eit W_sys.

Definition sched_sendable (t : eit) : Prop :=
  eit_ok t /\ eit_fits (N.to_nat 4098) t /\ exact_items eiti_descs (eit_items t) /\ 0x50 <= eit_table t <= 0x6F /\
  (1 <= length (eit_items t) < N.to_nat 504)%nat.
Definition guide (t : eit) : Prop := pf_sendable t \/ sched_sendable t.
Definition kind_of (tb : N) (t : eit) : Prop := tb = eit_table t \/ (0x50 <= eit_table t /\ tb / 16 = eit_table t / 16).
Definition relabel (tb : N) (t : eit) : eit := mkEit tb (eit_version t) (eit_pnr t) (eit_tsid t) (eit_onid t) (eit_items t).

Lemma guide_sends m t pid cc cc' o : guide t -> pid < 8192 -> cc < 16 -> eit_demux m t pid cc [] = Ok (cc', o) ->
  exists pks, o = concat pks /\ Forall (fun x => length x = 188%nat) pks /\
    forall m p old, exists q tb, kind_of tb t /\ receive m (eit_parse m) p old pks = Ok (q, eit_add old (relabel tb t)).
Proof.
  intros [G|G] Hp Hc D.
  - destruct (pf_sends m t G pid cc cc' o Hp Hc D) as (pks & E & L & R). exists pks. split; [exact E|]. split; [exact L|].
    intros m' p old. destruct (R m' p old) as [q Q]. exists q, (eit_table t). split; [left; reflexivity|]. exact Q.
  - destruct G as (H & F & X & T & L). destruct (eit_items t) as [|first items] eqn:E; [cbn in L; lia|]. rewrite <- E in X.
    destruct (eit_demux_schedule m t first items pid cc [] H E F T Hp Hc) as [D' K].
    destruct (eit_plan m t first items) as [[lt l]| |] eqn:P; try congruence. specialize (K lt l eq_refl). cbv zeta in D'.
    destruct (sched_plan m t first items pid cc [] H E F T Hp Hc lt l P) as (D1 & D2 & D3 & D4 & D5 & D6 & D7).
    destruct (seen_few t _ _ _ T (D7 ltac:(rewrite E; apply L))) as (_ & B & V).
    exists (stream pid cc (map (slot_section t) (sealing lt l))). rewrite D in D'. cbn [app] in D'. split; [congruence|]. split.
    + apply stream_188; [apply sections_bytes; exact K|exact Hc].
    + intros m' p old. destruct (eit_schedule_seen m' t first items lt l pid cc H E F T Hp Hc X m P p old) as [q Q]. rewrite V, D2 in Q.
      exists q, (slot_table (last (sealing lt l) no_slot)). split; [|exact Q].
      right. split; [apply T|]. rewrite Forall_forall in B. assert (I : In (last (sealing lt l) no_slot) (sealing lt l)).
      { apply last_in. intros Z. rewrite Z, E in D2. discriminate. }
      specialize (B _ I). clear - B. dlia.
Qed.

Definition guide_seen (ts : list eit) (old u : eit) : Prop :=
  eit_version u = eit_version (last ts old) /\ eit_pnr u = eit_pnr (last ts old) /\ eit_tsid u = eit_tsid (last ts old) /\
  eit_onid u = eit_onid (last ts old) /\ kind_of (eit_table u) (last ts old) /\ eit_items u = eit_items old ++ flat_map eit_items ts.
Lemma guide_receive m pid ts out : pid < 8192 -> Forall guide ts -> sent (eit_demux m) pid ts out ->
  exists pks, out = concat pks /\ Forall (fun x => length x = 188%nat) pks /\
    forall m p old, exists q u, receive m (eit_parse m) p old pks = Ok (q, u) /\ guide_seen ts old u.
Proof.
  intros Hp F S. induction S as [|t ts cc cc' o out Hcc D S IH].
  - exists []. split; [reflexivity|]. split; [constructor|]. intros m' p old. exists p, old. split; [reflexivity|].
    unfold guide_seen, kind_of. cbn [last flat_map]. rewrite app_nil_r. repeat split; try reflexivity. left. reflexivity.
  - inversion F as [|? ? F1 F2]; subst. destruct (guide_sends m t pid cc cc' o F1 Hp Hcc D) as (a & -> & A1 & A2). destruct (IH F2) as (b & -> & B1 & B2).
    exists (a ++ b). split; [symmetry; apply concat_app|]. split; [apply Forall_app; split; assumption|].
    intros m' p old. destruct (A2 m' p old) as (q & tb & K & E). destruct (B2 m' q (eit_add old (relabel tb t))) as (q' & u & E' & G).
    exists q', u. split; [rewrite receive_app, E; exact E'|]. unfold guide_seen in *. destruct G as (G1 & G2 & G3 & G4 & G5 & G6).
    cbn [flat_map]. rewrite app_assoc. destruct ts as [|x ts].
    { cbn [last] in *. repeat split; try assumption. unfold kind_of in *. cbn [eit_add relabel eit_table] in G5. clear - K G5.
      destruct K as [->|[K1 K2]]; [exact G5|]. right. split; [exact K1|]. destruct G5 as [->|[_ G]]; congruence. }
    rewrite (last_default ts x (eit_add old (relabel tb t)) old) in *. repeat split; assumption.
Qed.
Lemma guide_follow m pid ts out data pks sched buf n m' p old :
  Forall guide ts -> pid < 8192 -> sent (eit_demux m) pid ts out ->
  in_stream data pks -> bytes data -> no_fail sched -> (188 <= length buf)%nat -> (length pks < n)%nat ->
  concat (filter (on pid) pks) = out ->
  exists s q u, follow n m' (eit_parse m') pid (mkSource data sched) buf p old = Ok (s, q, u) /\ s_data s = [] /\ guide_seen ts old u.
Proof.
  intros F Hp S I B NF L Ln E. destruct (guide_receive m pid ts out Hp F S) as (pk & E' & P & R).
  assert (X : filter (on pid) pks = pk).
  { apply concat_inj; [|assumption|congruence]. clear - I. assert (G : Forall (fun x => length x = 188%nat) pks) by (induction I; constructor; assumption).
    rewrite Forall_forall in *. intros x Hx. apply filter_In in Hx. apply G. apply Hx. }
  destruct (R m' p old) as (q & u & Eq & G). pose proof (follow_spec m' (eit_parse m') pid pks data (mkSource data sched) buf n p old I eq_refl B NF L Ln) as H.
  rewrite X, Eq in H. destruct H as (s & H1 & H2). exists s, q, u. auto.
Qed.
