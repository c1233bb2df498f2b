(** Combinations: tables sent by this library, received from a byte stream. *)
From Verif Require Import Prelude Layout Facts Facts2 S_ts S_crc S_utils S_psi M_bytes M_ts M_crc M_utils M_psi M_drive M_recv M_desc S_desc
  M_tables S_tables P_bytes P_ts P_crc P_utils P_psi P_mux P_mux2 P_sect P_mux3 P_desc P_desc2 P_desc3 W_psi W_desc P_tab P_tab2 P_tab5 P_tab6 P_tab7 P_tot W_tables P_tab3 P_eit
  M_reader S_reader P_reader M_system S_system P_sys P_sys2.

Lemma concat_inj (a : list (list N)) : forall b, Forall (fun x => length x = 188%nat) a -> Forall (fun x => length x = 188%nat) b -> concat a = concat b -> a = b.
Proof.
  induction a as [|x a IH]; intros [|y b] A B E.
  - reflexivity.
  - inversion B; subst. apply (f_equal (@length N)) in E. cbn [concat] in E. rewrite app_length in E. cbn in E. lia.
  - inversion A; subst. apply (f_equal (@length N)) in E. cbn [concat] in E. rewrite app_length in E. cbn in E. lia.
  - inversion A as [|? ? A1 A2]; subst. inversion B as [|? ? B1 B2]; subst. cbn [concat] in E.
    assert (x = y).
    { apply (f_equal (firstn 188)) in E. rewrite <- A1 in E at 1. rewrite <- B1 in E at 1.
      rewrite !firstn_app, !Nat.sub_diag, !firstn_all, !firstn_O, !app_nil_r in E. exact E. }
    subst y. apply app_inv_head in E. f_equal. apply IH; assumption.
Qed.
Lemma section_packets_188 pid cc s : bytes s -> cc < 16 -> Forall (fun x => length x = 188%nat) (section_packets pid cc s).
Proof.
  intros Hb Hcc. destruct (section_chunks s Hb) as (c & ps & st & Ec & Hps & Hbc & Hlc & Ecat & Hst & Hlen).
  unfold section_packets. rewrite Ec, number_packets_k. cbn [number_k map]. constructor.
  - apply number_k_ok; [assumption| |cbn [length]; lia]. apply bytes_cons. split; [lia|assumption].
  - assert (G : forall ps cc, Forall (fun c => bytes c /\ length c = 184%nat) ps -> cc < 16 -> Forall (fun x => length x = 188%nat) (map encode (number_k pid cc false ps))).
    { clear. induction ps as [|x ps IH]; intros cc F Hcc; [constructor|]. inversion F as [|? ? [F1 F2] F3]; subst. cbn [number_k map]. constructor.
      - apply number_k_ok; assumption.
      - apply IH; [assumption|apply N.mod_lt; discriminate]. }
    apply G; [assumption|apply N.mod_lt; discriminate].
Qed.
Lemma stream_188 pid ss : Forall bytes ss -> forall cc, cc < 16 -> Forall (fun x => length x = 188%nat) (stream pid cc ss).
Proof.
  induction 1 as [|s ss Hs _ IH]; intros cc Hcc; [constructor|]. rewrite stream_cons. apply Forall_app. split; [apply section_packets_188; assumption|].
  apply IH. apply N.mod_lt. discriminate.
Qed.

(** one table: the packets and what a receiver makes of them *)
Definition sends_as {T} (dm : T -> N -> N -> list N -> res (N * list N)) (parse : mode -> T -> psi -> res T) (add : T -> T -> T) (t : T) : Prop :=
  forall pid cc cc' o, pid < 8192 -> cc < 16 -> dm t pid cc [] = Ok (cc', o) ->
    exists pks, o = concat pks /\ Forall (fun x => length x = 188%nat) pks /\
      forall m p old, exists q, receive m (parse m) p old pks = Ok (q, add old t).
Lemma sent_receive {T} (dm : T -> N -> N -> list N -> res (N * list N)) (parse : mode -> T -> psi -> res T) add pid ts out : pid < 8192 -> Forall (sends_as dm parse add) ts -> sent dm pid ts out ->
  exists pks, out = concat pks /\ Forall (fun x => length x = 188%nat) pks /\
    forall m p old, exists q, receive m (parse m) p old pks = Ok (q, fold_left add ts old).
Proof.
  intros Hp F S. induction S as [|t ts cc cc' o out Hcc D S IH].
  - exists []. split; [reflexivity|]. split; [constructor|]. intros m p old. exists p. reflexivity.
  - inversion F as [|? ? F1 F2]; subst. destruct (F1 pid cc cc' o Hp Hcc D) as (a & -> & A1 & A2). destruct (IH F2) as (b & -> & B1 & B2).
    exists (a ++ b). split; [symmetry; apply concat_app|]. split; [apply Forall_app; split; assumption|].
    intros m p old. destruct (A2 m p old) as [q E]. destruct (B2 m q (add old t)) as [q' E']. exists q'. rewrite receive_app, E. exact E'.
Qed.
Lemma stream_sends {T} (dm : T -> N -> N -> list N -> res (N * list N)) (parse : mode -> T -> psi -> res T) add t :
  (forall pid cc, pid < 8192 -> cc < 16 -> exists ss, Forall bytes ss /\ sends (dm t pid cc []) pid cc [] ss /\
    forall m p old, exists q, receive m (parse m) p old (stream pid cc ss) = Ok (q, add old t)) -> sends_as dm parse add t.
Proof.
  intros H pid cc cc' o Hp Hcc E. destruct (H pid cc Hp Hcc) as (ss & B & S & R). exists (stream pid cc ss).
  unfold sends in S. cbn [app] in S. split; [congruence|]. split; [apply stream_188; assumption|]. exact R.
Qed.

(** followed in a stream *)
Lemma sent_follow {T} (dm : T -> N -> N -> list N -> res (N * list N)) (parse : mode -> T -> psi -> res T) add pid ts out data pks sched buf n m p old :
  Forall (sends_as dm parse add) ts -> pid < 8192 -> sent dm pid ts out ->
  in_stream data pks -> bytes data -> no_fail sched -> (188 <= length buf)%nat -> (length pks < n)%nat ->
  concat (filter (on pid) pks) = out ->
  exists s q, follow n m (parse m) pid (mkSource data sched) buf p old = Ok (s, q, fold_left add ts old) /\ s_data s = [].
Proof.
  intros F Hp S I B NF L Ln E. destruct (sent_receive dm parse add pid ts out Hp F S) as (pk & E' & P & R).
  assert (X : filter (on pid) pks = pk).
  { apply concat_inj; [|assumption|congruence]. clear - I. assert (G : Forall (fun x => length x = 188%nat) pks) by (induction I; constructor; assumption).
    rewrite Forall_forall in *. intros x Hx. apply filter_In in Hx. apply G. apply Hx. }
  destruct (R m p old) as [q Eq]. pose proof (follow_spec m (parse m) pid pks data (mkSource data sched) buf n p old I eq_refl B NF L Ln) as H.
  rewrite X, Eq in H. destruct H as (s & H1 & H2). exists s, q. auto.
Qed.

(** the tables *)
Lemma sections_bytes ss : Forall section_ok ss -> Forall bytes ss.
Proof. apply Forall_impl. intros s H. apply H. Qed.
Lemma sdt_sends m t : sdt_sendable t -> sends_as (sdt_demux m) sdt_parse sdt_add t.
Proof.
  intros (H & F & X & T). apply stream_sends. intros pid cc Hp Hc.
  destruct (sdt_demux_spec m t pid cc [] H F Hp Hc) as (g0 & gs & E & S & D). cbv zeta in D. destruct D as [D K].
  eexists. split; [exact (sections_bytes _ K)|]. split; [exact D|].
  intros m' p old. apply (receive_stream m' _ pid (sdt_quiet m') (sdt_blind m')); [assumption|assumption|]. apply sdt_recover; assumption.
Qed.
Lemma nit_sends m t : nit_sendable t -> sends_as (nit_demux m) nit_parse nit_add t.
Proof.
  intros (H & F & Y & X & T). apply stream_sends. intros pid cc Hp Hc.
  destruct (nit_demux_spec m t pid cc [] H F Hp Hc) as (g0 & gs & E & S & D). cbv zeta in D. destruct D as [D K].
  eexists. split; [exact (sections_bytes _ K)|]. split; [exact D|].
  intros m' p old. apply (receive_stream m' _ pid (nit_quiet m') (nit_blind m')); [assumption|assumption|]. apply nit_recover; assumption.
Qed.
Lemma pmt_sends m t : pmt_sendable t -> sends_as (pmt_demux m) pmt_parse pmt_add t.
Proof.
  intros (H & F & Y & X). apply stream_sends. intros pid cc Hp Hc.
  destruct (pmt_demux_spec m t pid cc [] H F Hp Hc) as (g0 & gs & E & S & D). cbv zeta in D. destruct D as [D K].
  eexists. split; [exact (sections_bytes _ K)|]. split; [exact D|].
  intros m' p old. apply (receive_stream m' _ pid (pmt_quiet m') (pmt_blind m')); [assumption|assumption|]. apply pmt_recover; assumption.
Qed.
Lemma pat_sends m t : pat_sendable t -> sends_as (pat_demux m) pat_parse pat_add t.
Proof.
  intros (H & L). apply stream_sends. intros pid cc Hp Hc. destruct (pat_demux_spec m t pid cc [] H Hp Hc) as (D & K & _).
  eexists. split; [|split; [exact D|]].
  - constructor; [apply K|constructor].
  - intros m' p old. destruct (pat_whole m t pid cc [] H Hp Hc) as [_ R]. destruct (R m' p old) as [q E]. exists q. rewrite E.
    rewrite firstn_all2 by assumption. destruct t. reflexivity.
Qed.
Lemma tot_sends m t : tot_sendable t -> sends_as (tot_demux m) tot_parse tot_add t.
Proof.
  intros (H1 & H2 & H3 & H4). apply stream_sends. intros pid cc Hp Hc. destruct (tot_demux_spec m t pid cc [] H1 H2 H3 Hp Hc) as (D & K).
  eexists. split; [|split; [exact D|]].
  - constructor; [apply K|constructor].
  - destruct (tot_whole m t pid cc [] H1 H2 H3 Hp Hc) as [_ R]. exact (R H4).
Qed.
Lemma tdt_sends m t : tdt_sendable t -> sends_as (tdt_demux m) tdt_parse (fun _ u => u) t.
Proof.
  intros H. apply stream_sends. intros pid cc Hp Hc. exists [tdt_bytes t]. split; [|split].
  - constructor; [apply (tdt_facts t H)|constructor].
  - exact (tdt_demux_spec m t pid cc [] H Hp Hc).
  - intros m' p old. apply tdt_receive; assumption.
Qed.
Lemma pf_sends m t : pf_sendable t -> sends_as (eit_demux m) eit_parse eit_add t.
Proof.
  intros (H & F & X & T & L1 & L2). apply stream_sends. intros pid cc Hp Hc.
  destruct (eit_pf_demux m t pid cc [] H F T L2 Hp Hc) as [D K]. eexists. split; [exact (sections_bytes _ K)|]. split; [exact D|].
  destruct (pf_whole m t pid cc [] H F T L2 Hp Hc) as [_ R]. apply R; [|exact X]. intros Z. rewrite Z in L1. cbn in L1. lia.
Qed.

(** a section in one packet *)
Definition with_section (s : list N) : packet := mkPacket 0x47 0 true 0 0 0 true 5 None (0 :: s ++ repeat 255 (183 - length s)).
Lemma with_section_carries s : bytes s -> (3 <= length s <= 183)%nat -> carries [with_section s] s.
Proof.
  intros B L. assert (B' : bytes (s ++ repeat 255 (183 - length s))) by (apply bytes_app; split; [assumption|apply bytes_repeat; lia]).
  exists (with_section s), [], (s ++ repeat 255 (183 - length s)), (repeat 255 (183 - length s)).
  split; [reflexivity|]. split.
  - apply (number_k_ok 0 5 true (0 :: s ++ repeat 255 (183 - length s))); [lia|apply bytes_cons; split; [lia|assumption]|].
    cbn [length]. rewrite app_length, repeat_length. lia.
  - do 3 (split; [reflexivity|]). split; [exact I|]. split; [exact I|]. split; [apply app_nil_r|]. cbn [length]. lia.
Qed.
Lemma last_default {A} (l : list A) : forall x a b, last (x :: l) a = last (x :: l) b.
Proof. induction l as [|y l IH]; intros x a b; [reflexivity|]. exact (IH y a b). Qed.
