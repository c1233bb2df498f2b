(** Property theorems C84: where the bytes of a section come from. Specification: S_origin. *)
From Verif Require Import Prelude Layout S_ts S_crc S_utils S_psi M_text M_ts M_psi M_drive M_recv M_desc S_desc M_tables S_tables Props_tables
  M_reader S_reader M_system S_system Props_system S_loss Props_loss S_origin.
From Verif Require P_psi P_tab2 P_packed P_origin Facts.

(** * C84 *)
(** any packets, in any order, with any content: a complete section in a Psi came in one piece, in
    packets one behind the other with counters in step *)
Theorem C84_held : forall m pks p, Forall ts_packet pks -> mux_all m psi_default pks = Ok p -> (0 < p_size p <= length (p_buffer p))%nat ->
  part_of pks (firstn (p_size p) (p_buffer p)).
Proof. intros m pks p. exact (P_origin.held m pks p). Qed.
Print Assumptions C84_held.
(** a table is made of such sections only, and only of those with the right table_id, length and CRC *)
Section Readings.
Context {T : Type} (parse : T -> psi -> res T).
Fixpoint readings (t : T) (ps : list psi) : res T :=
  match ps with [] => Ok t | p :: ps' => t <- parse t p ;; readings t ps' end.
End Readings.
Definition reads_only {T} (parse : mode -> T -> psi -> res T) (right : list (list N) -> list (list N)) : Prop :=
  forall m pks t q u, Forall ts_packet pks -> receive m (parse m) psi_default t pks = Ok (q, u) ->
    exists ps, readings (parse m) t ps = Ok u /\
      Forall (fun p => let s := firstn (p_size p) (p_buffer p) in length s = p_size p /\ part_of pks s /\ right [s] = [s]) ps.
Lemma from_heeds {T} (parse : mode -> T -> psi -> res T) f : (forall m, P_origin.heeds (parse m) f) -> reads_only parse (filter f).
Proof.
  intros X m pks t q u P E. destruct (P_origin.read_run m (parse m) f (X m) pks [] psi_default t q u P eq_refl E) as (ps & F & R).
  exists ps. split; [exact R|]. cbn [app] in F. apply Forall_forall. intros p I. rewrite Forall_forall in F. destruct (F p I) as (F1 & F2 & F3). cbv zeta.
  split; [rewrite firstn_length; lia|]. split; [exact F2|]. cbn [filter]. rewrite F3. reflexivity.
Qed.
Theorem C84_pat : reads_only pat_parse (heard id_pat 12).
Proof. exact (from_heeds pat_parse _ P_origin.pat_heeds). Qed.
Print Assumptions C84_pat.
Theorem C84_pmt : reads_only pmt_parse (heard id_pmt 16).
Proof. exact (from_heeds pmt_parse _ P_origin.pmt_heeds). Qed.
Print Assumptions C84_pmt.
Theorem C84_nit : reads_only nit_parse (heard id_nit 16).
Proof. exact (from_heeds nit_parse _ P_origin.nit_heeds). Qed.
Print Assumptions C84_nit.
Theorem C84_sdt : reads_only sdt_parse (heard id_sdt 15).
Proof. exact (from_heeds sdt_parse _ P_origin.sdt_heeds). Qed.
Print Assumptions C84_sdt.
Theorem C84_eit : reads_only eit_parse (heard id_eit 18).
Proof. exact (from_heeds eit_parse _ P_origin.eit_heeds). Qed.
Print Assumptions C84_eit.
Theorem C84_tot : reads_only tot_parse (heard id_tot 14).
Proof. exact (from_heeds tot_parse _ P_origin.tot_heeds). Qed.
Print Assumptions C84_tot.
Theorem C84_tdt : reads_only tdt_parse heard_tdt.
Proof. exact (from_heeds tdt_parse _ P_origin.tdt_heeds). Qed.
Print Assumptions C84_tdt.
(** so a table stays as it is where no such section came *)
Theorem C84_silent : forall T (parse : mode -> T -> psi -> res T) right, reads_only parse right ->
  forall m pks t q u, Forall ts_packet pks -> (forall s, part_of pks s -> right [s] = []) -> receive m (parse m) psi_default t pks = Ok (q, u) -> u = t.
Proof.
  intros T parse right H m pks t q u P N E. destruct (H m pks t q u P E) as ([|p ps] & R & F); [cbn in R; congruence|].
  inversion F as [|? ? (_ & F2 & F3) _]; subst. rewrite (N _ F2) in F3. discriminate.
Qed.
Print Assumptions C84_silent.
(** a PAT in two packets is read in their order and not in the other; and not if another packet with payload comes between *)
Definition two : list (list N) := map encode (split_13 4 pat_a).
Example C84_ex : part_of two pat_a /\
  (forall m, exists q u, receive m (pat_parse m) psi_default pat_default two = Ok (q, u) /\ length (pat_items u) = 3%nat) /\
  (forall m, exists q, receive m (pat_parse m) psi_default pat_default (rev two) = Ok (q, pat_default)) /\
  (forall m, exists q, receive m (pat_parse m) psi_default pat_default (firstn 1 two ++ map encode [half false 7 [1; 2; 3]] ++ skipn 1 two) = Ok (q, pat_default)).
Proof.
  split; [|split; [|split]].
  - exists [], two, [], [], []. split; [vm_compute; reflexivity|]. split; [vm_compute; auto|]. split; [repeat constructor|]. vm_compute. reflexivity.
  - intros []; eexists; eexists; (split; [vm_compute; reflexivity|reflexivity]).
  - intros []; eexists; vm_compute; reflexivity.
  - intros []; eexists; vm_compute; reflexivity.
Qed.
