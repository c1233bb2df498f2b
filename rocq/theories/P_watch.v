(** Proofs for C105. *)
From Verif Require Import Prelude Layout Facts Facts2 S_ts S_crc S_utils S_psi M_bytes M_ts M_crc M_utils M_psi M_drive M_recv M_desc S_desc
  M_tables S_tables P_bytes P_ts P_crc P_utils P_psi P_mux P_mux2 P_sect P_mux3 P_desc P_desc2 P_desc3 W_psi W_desc P_tab P_tab2 P_tab3 P_tab4 P_tab5 P_tab6 P_tab7 W_tables
  M_reader S_reader P_reader M_system S_system P_sys P_sys2 W_sys S_packed P_packed M_from M_tune S_tune P_tune M_remux S_remux P_remux W_remux
  S_measure M_restamp S_restamp P_restamp M_move P_move.
From Verif Require Import M_words M_count M_watch.
From Verif Require P_count.

Lemma moved_same t : moved (fun s => s) t = t.
Proof. destruct t as [v n p d it]. unfold moved. cbn [pmt_version pmt_pnr pmt_pcr pmt_descs pmt_items]. f_equal. rewrite <- (map_id it) at 2. apply map_ext. intros [a b c]. reflexivity. Qed.
Lemma own_program m m' v tsid want q t ts us o0 o1 x b : v < 32 -> tsid < 65536 -> q < 8192 -> q <> 0 ->
  pmt_sendable t -> pmt_pnr t = want -> (16 + entries_size t <= N.to_nat 1024)%nat -> (forall s, In s (streams t) -> s < 8192) ->
  sent (pat_demux m) 0 ts o0 -> Forall (eq (mkPat v tsid [mkPatI want q])) ts -> sent (pmt_demux m) q us o1 -> Forall (eq t) us -> us <> [] ->
  Forall (fun pk => length pk = 188%nat /\ bytes pk) (x :: b) -> on 0 x = true -> concat (filter (on 0) (x :: b)) = o0 -> concat (filter (on q) (x :: b)) = o1 ->
  exists p0 p, tune m' want tuner_new (x :: b) = Ok (mkTuner p0 (mkPat v tsid [mkPatI want q]) p t).
Proof.
  intros Hv Ht Hq Hq0 St Hw Sz R S0 F0 S1 F1 N1 Fx Ox E0 E1.
  destruct (moved_sendable (fun s => s) t St R) as (M1 & M2 & M3). rewrite moved_same in *.
  assert (M4 : forall w, sends_as (pmt_demux m) (fun m => latest_pmt m w) (pmt_keep w) t) by (intros w; exact (latest_sends m t M1 M2 M3 Sz w)).
  assert (Fs : Forall (sends_as (pmt_demux m) (fun m => latest_pmt m want) (pmt_keep want)) us) by (eapply Forall_impl; [|exact F1]; intros y <-; apply M4).
  destruct (sent_receive _ _ _ q us o1 Hq Fs S1) as (pks & Ep & Lp & Rp).
  assert (X : filter (on q) (x :: b) = pks).
  { apply concat_inj; [|exact Lp|congruence]. rewrite Forall_forall in *. intros y Hy. apply filter_In in Hy as [Hy _]. apply Fx. exact Hy. }
  destruct (Rp m' psi_default pmt_default) as [p Er]. cbv beta in Er. rewrite <- X in Er.
  assert (Hlast : fold_left (pmt_keep want) us pmt_default = t).
  { rewrite keep_fold. assert (Hf : filter (fun u => pmt_pnr u =? want) us = us).
    { clear - F1 Hw. induction F1 as [|y us <- F1 IH]; [reflexivity|]. cbn [filter]. rewrite IH. rewrite Hw, N.eqb_refl. reflexivity. }
    rewrite Hf. destruct us as [|y us]; [congruence|]. inversion F1 as [|? ? <- F1']; subst. rewrite last_cons. apply last_same. exact F1'. }
  rewrite Hlast in Er. assert (Hw' : want < 65536) by (rewrite <- Hw; apply St).
  destruct (own_tune m v tsid want q Hv Ht Hw' Hq ts o0 x b m' p t Hq0 Fx Ox S0 F0 E0 Er) as [p0 Et]. exists p0, p. exact Et.
Qed.
Lemma each_ok {A B} (f : A -> res B) (g : A -> B) l : (forall x, In x l -> f x = Ok (g x)) -> each f l = Ok (map g l).
Proof. induction l as [|x l IH]; intros H; [reflexivity|]. cbn [each map]. rewrite (H x) by (left; reflexivity). cbn [bind]. rewrite IH by (intros y Y; apply H; right; exact Y). reflexivity. Qed.
