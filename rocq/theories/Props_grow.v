(** Property theorems C85: how tables grow. Specification: S_grow. *)
From Verif Require Import Prelude Layout S_ts S_crc S_utils S_psi M_text M_ts M_psi M_drive M_recv M_desc S_desc M_tables S_tables Props_tables
  M_reader S_reader M_system S_system Props_system S_origin S_grow.
From Verif Require P_psi P_grow P_sys P_packed Facts.

(** * C85 *)
(** reading a section adds entries and descriptors behind those of the table and takes none away; what is added fits,
    with its headers, between the header of the section and the CRC *)
Definition grows {T A} (parse : mode -> T -> psi -> res T) (h : nat) (descs : A -> list desc) (items : T -> list A) (ds : T -> list desc) (min : nat) : Prop :=
  (forall m t p u, parse m t p = Ok u -> u = t \/ grown h descs (items t) (items u) (ds t) (ds u) (p_size p - min)) /\
  (forall m pks t q u, Forall ts_packet pks -> receive m (parse m) psi_default t pks = Ok (q, u) ->
     grown h descs (items t) (items u) (ds t) (ds u) (length pks * (N.to_nat 4098 - min))).
Lemma both {T A} (parse : mode -> T -> psi -> res T) h (descs : A -> list desc) items ds min :
  (forall m t p u, parse m t p = Ok u -> u = t \/ grown h descs (items t) (items u) (ds t) (ds u) (p_size p - min)) -> grows parse h descs items ds min.
Proof.
  intros G. split; [exact G|]. intros m pks t q u P E.
  apply (P_grow.stream_grown m (parse m) h (N.to_nat 4098 - min) descs items ds) with (d := []) (p := psi_default) (q := q); [|exact P|reflexivity|exact E].
  intros t1 p u1 L E1. destruct (G m t1 p u1 E1) as [->|(new & nds & H1 & H2 & H3)]; [left; reflexivity|right]. exists new, nds. split; [exact H1|]. split; [exact H2|]. lia.
Qed.
Theorem C85_pat : grows pat_parse 4 (fun _ => []) pat_items (fun _ => []) 12.
Proof. exact (both pat_parse 4 (fun _ => []) pat_items (fun _ => []) 12 P_grow.pat_grown). Qed.
Print Assumptions C85_pat.
Theorem C85_pmt : grows pmt_parse 5 pmti_descs pmt_items pmt_descs 16.
Proof. exact (both pmt_parse 5 pmti_descs pmt_items pmt_descs 16 P_grow.pmt_grown). Qed.
Print Assumptions C85_pmt.
Theorem C85_nit : grows nit_parse 6 niti_descs nit_items nit_descs 16.
Proof. exact (both nit_parse 6 niti_descs nit_items nit_descs 16 P_grow.nit_grown). Qed.
Print Assumptions C85_nit.
Theorem C85_sdt : grows sdt_parse 5 sdti_descs sdt_items (fun _ => []) 15.
Proof. exact (both sdt_parse 5 sdti_descs sdt_items (fun _ => []) 15 P_grow.sdt_grown). Qed.
Print Assumptions C85_sdt.
Theorem C85_eit : grows eit_parse 12 eiti_descs eit_items (fun _ => []) 18.
Proof. exact (both eit_parse 12 eiti_descs eit_items (fun _ => []) 18 P_grow.eit_grown). Qed.
Print Assumptions C85_eit.
(** the TOT takes its descriptors from anywhere in the buffer *)
Theorem C85_tot : (forall m t p u, tot_parse m t p = Ok u ->
    u = t \/ exists nds, tot_descs u = tot_descs t ++ nds /\ (2 * length nds <= Nat.min (length (p_buffer p) - 10) (N.to_nat 4095))%nat) /\
  (forall m pks t q u, Forall ts_packet pks -> receive m (tot_parse m) psi_default t pks = Ok (q, u) ->
    exists nds, tot_descs u = tot_descs t ++ nds /\ (2 * length nds <= length pks * N.to_nat 4095)%nat).
Proof.
  split; [exact P_grow.tot_grown|]. intros m pks t q u P E.
  assert (G : grown (A := unit) 0 (fun _ => []) [] [] (tot_descs t) (tot_descs u) (length pks * N.to_nat 4095)).
  { apply (P_grow.stream_grown m (tot_parse m) 0 (N.to_nat 4095) (fun _ : unit => []) (fun _ => []) tot_descs) with (d := []) (p := psi_default) (q := q); [|exact P|reflexivity|exact E].
    intros t1 p u1 L E1. destruct (P_grow.tot_grown m t1 p u1 E1) as [->|(nds & H1 & H2)]; [left; reflexivity|right]. exists [], nds. split; [reflexivity|]. split; [exact H1|]. cbn [least fold_right]. lia. }
  destruct G as (new & nds & _ & H & L). exists nds. split; [exact H|]. lia.
Qed.
Print Assumptions C85_tot.

(** the size of a table is not bounded by the bytes of sections received: a PAT of [n] programs, then packets without payload *)
Definition long_pat (k : nat) : list pat_item := repeat (mkPatI 100 256) k.
Definition pat_of (k : nat) : list N := pat_section (mkPat 7 1 (long_pat k)) (long_pat k).
Theorem C85_bytes_refuted : exists s, framed s /\ length s = N.to_nat 180 /\ forall m n, exists q u,
  receive m (pat_parse m) psi_default pat_default (map encode (with_section s :: repeat no_payload n)) = Ok (q, u) /\ length (pat_items u) = (42 * S n)%nat.
Proof.
  exists (pat_of 42). split; [split; vm_compute; [repeat constructor|reflexivity]|]. split; [vm_compute; reflexivity|]. intros m n.
  set (q := mkPsi (pat_of 42) (length (pat_of 42)) 0 5).
  assert (E0 : psi_mux m psi_default (encode (with_section (pat_of 42))) = Ok q) by (destruct m; vm_compute; reflexivity).
  assert (E1 : psi_mux m q (encode no_payload) = Ok q) by (destruct m; vm_compute; reflexivity).
  assert (E2 : forall t, pat_parse m t q = Ok (pat_add t (mkPat 7 1 (long_pat 42)))).
  { intros t. destruct (P_packed.pat_readable m) as (X1 & _). pose proof (X1 t (pat_of 42) [] (mkPat 7 1 (long_pat 42)) 0 5) as H. rewrite app_nil_r in H. apply H.
    - split; [vm_compute; repeat constructor|vm_compute; reflexivity].
    - constructor.
    - vm_compute. reflexivity.
    - vm_compute. reflexivity. }
  clearbody q. assert (R : forall t, exists u, receive m (pat_parse m) q t (map encode (repeat no_payload n)) = Ok (q, u) /\ length (pat_items u) = (length (pat_items t) + 42 * n)%nat).
  { induction n as [|n IH]; intros t; [exists t; split; [reflexivity|lia]|]. cbn [repeat map receive]. rewrite E1. cbn [bind]. rewrite E2. cbn [bind].
    destruct (IH (pat_add t (mkPat 7 1 (long_pat 42)))) as (u & Eu & L). exists u. split; [exact Eu|]. rewrite L. unfold pat_add, long_pat. cbn [pat_items]. rewrite app_length, repeat_length. lia. }
  cbn [map receive]. rewrite E0. cbn [bind]. rewrite E2. cbn [bind]. destruct (R (pat_add pat_default (mkPat 7 1 (long_pat 42)))) as (u & Eu & L). exists q, u. split; [exact Eu|].
  rewrite L. unfold pat_add, long_pat. cbn [pat_items pat_default app]. rewrite repeat_length. lia.
Qed.
Print Assumptions C85_bytes_refuted.
(** bounds that are reached *)
Example C85_ex : forall m, exists u, pat_parse m (mkPat 0 0 [mkPatI 9 9]) (mkPsi one_program (length one_program) 0 0) = Ok u /\
  pat_items u = [mkPatI 9 9; mkPatI 100 256] /\ (length one_program - 12 = 4)%nat.
Proof. intros []; eexists; (split; [vm_compute; reflexivity|split; reflexivity]). Qed.
