(** Property theorems C63: tables sent again and again. *)
From Verif Require Import Prelude Layout S_ts S_crc S_utils S_psi M_text M_ts M_psi M_drive M_recv M_desc S_desc M_tables S_tables Props_tables
  M_system S_system.
From Verif Require W_sys.

(** * C63 *)
(** what is received after several tables (or one, several times): the items of all, and the
    header of the last *)
Definition received {T} (dm : T -> N -> N -> list N -> res (N * list N)) (parse : mode -> T -> psi -> res T) (pid : N) (ts : list T) (good : T -> T -> Prop) : Prop :=
  forall out, sent dm pid ts out -> exists pks, out = concat pks /\ Forall (fun x => length x = 188%nat) pks /\
    forall m p old, exists q u, receive m (parse m) p old pks = Ok (q, u) /\ good old u.
Theorem C63_pat : forall m pid ts, Forall pat_sendable ts -> pid < 8192 -> received (pat_demux m) pat_parse pid ts (fun old u =>
  pat_version u = pat_version (last ts old) /\ pat_tsid u = pat_tsid (last ts old) /\ pat_items u = pat_items old ++ flat_map pat_items ts).
Proof.
  intros m pid ts S Hp out D. destruct (W_sys.sent_receive (pat_demux m) pat_parse pat_add pid ts out Hp) as (pks & E & L & R); [|exact D|].
  - eapply Forall_impl; [|exact S]. intros t H. exact (W_sys.pat_sends m t H).
  - exists pks. split; [exact E|]. split; [exact L|]. intros m' p old. destruct (R m' p old) as [q Q]. eexists q, _. split; [exact Q|]. clear.
    revert old. induction ts as [|t ts IH]; intros old; cbn [fold_left last flat_map]; [rewrite ?app_nil_r; repeat split; reflexivity|].
    destruct (IH (pat_add old t)) as (H0 & H1 & H2). rewrite H0, H1, H2.
    rewrite ?app_assoc. destruct ts as [|x ts]; [repeat split; reflexivity|]. rewrite (W_sys.last_default ts x (pat_add old t) old). repeat split; reflexivity.
Qed.
Print Assumptions C63_pat.
Theorem C63_pmt : forall m pid ts, Forall pmt_sendable ts -> pid < 8192 -> received (pmt_demux m) pmt_parse pid ts (fun old u =>
  pmt_version u = pmt_version (last ts old) /\ pmt_pnr u = pmt_pnr (last ts old) /\ pmt_pcr u = pmt_pcr (last ts old) /\ pmt_descs u = pmt_descs old ++ flat_map pmt_descs ts /\ pmt_items u = pmt_items old ++ flat_map pmt_items ts).
Proof.
  intros m pid ts S Hp out D. destruct (W_sys.sent_receive (pmt_demux m) pmt_parse pmt_add pid ts out Hp) as (pks & E & L & R); [|exact D|].
  - eapply Forall_impl; [|exact S]. intros t H. exact (W_sys.pmt_sends m t H).
  - exists pks. split; [exact E|]. split; [exact L|]. intros m' p old. destruct (R m' p old) as [q Q]. eexists q, _. split; [exact Q|]. clear.
    revert old. induction ts as [|t ts IH]; intros old; cbn [fold_left last flat_map]; [rewrite ?app_nil_r; repeat split; reflexivity|].
    destruct (IH (pmt_add old t)) as (H0 & H1 & H2 & H3 & H4). rewrite H0, H1, H2, H3, H4.
    rewrite ?app_assoc. destruct ts as [|x ts]; [repeat split; reflexivity|]. rewrite (W_sys.last_default ts x (pmt_add old t) old). repeat split; reflexivity.
Qed.
Print Assumptions C63_pmt.
Theorem C63_nit : forall m pid ts, Forall nit_sendable ts -> pid < 8192 -> received (nit_demux m) nit_parse pid ts (fun old u =>
  nit_table u = nit_table (last ts old) /\ nit_version u = nit_version (last ts old) /\ nit_network u = nit_network (last ts old) /\ nit_descs u = nit_descs old ++ flat_map nit_descs ts /\ nit_items u = nit_items old ++ flat_map nit_items ts).
Proof.
  intros m pid ts S Hp out D. destruct (W_sys.sent_receive (nit_demux m) nit_parse nit_add pid ts out Hp) as (pks & E & L & R); [|exact D|].
  - eapply Forall_impl; [|exact S]. intros t H. exact (W_sys.nit_sends m t H).
  - exists pks. split; [exact E|]. split; [exact L|]. intros m' p old. destruct (R m' p old) as [q Q]. eexists q, _. split; [exact Q|]. clear.
    revert old. induction ts as [|t ts IH]; intros old; cbn [fold_left last flat_map]; [rewrite ?app_nil_r; repeat split; reflexivity|].
    destruct (IH (nit_add old t)) as (H0 & H1 & H2 & H3 & H4). rewrite H0, H1, H2, H3, H4.
    rewrite ?app_assoc. destruct ts as [|x ts]; [repeat split; reflexivity|]. rewrite (W_sys.last_default ts x (nit_add old t) old). repeat split; reflexivity.
Qed.
Print Assumptions C63_nit.
Theorem C63_sdt : forall m pid ts, Forall sdt_sendable ts -> pid < 8192 -> received (sdt_demux m) sdt_parse pid ts (fun old u =>
  sdt_table u = sdt_table (last ts old) /\ sdt_version u = sdt_version (last ts old) /\ sdt_tsid u = sdt_tsid (last ts old) /\ sdt_onid u = sdt_onid (last ts old) /\ sdt_items u = sdt_items old ++ flat_map sdt_items ts).
Proof.
  intros m pid ts S Hp out D. destruct (W_sys.sent_receive (sdt_demux m) sdt_parse sdt_add pid ts out Hp) as (pks & E & L & R); [|exact D|].
  - eapply Forall_impl; [|exact S]. intros t H. exact (W_sys.sdt_sends m t H).
  - exists pks. split; [exact E|]. split; [exact L|]. intros m' p old. destruct (R m' p old) as [q Q]. eexists q, _. split; [exact Q|]. clear.
    revert old. induction ts as [|t ts IH]; intros old; cbn [fold_left last flat_map]; [rewrite ?app_nil_r; repeat split; reflexivity|].
    destruct (IH (sdt_add old t)) as (H0 & H1 & H2 & H3 & H4). rewrite H0, H1, H2, H3, H4.
    rewrite ?app_assoc. destruct ts as [|x ts]; [repeat split; reflexivity|]. rewrite (W_sys.last_default ts x (sdt_add old t) old). repeat split; reflexivity.
Qed.
Print Assumptions C63_sdt.
Theorem C63_pf : forall m pid ts, Forall pf_sendable ts -> pid < 8192 -> received (eit_demux m) eit_parse pid ts (fun old u =>
  eit_table u = eit_table (last ts old) /\ eit_version u = eit_version (last ts old) /\ eit_pnr u = eit_pnr (last ts old) /\ eit_tsid u = eit_tsid (last ts old) /\ eit_onid u = eit_onid (last ts old) /\ eit_items u = eit_items old ++ flat_map eit_items ts).
Proof.
  intros m pid ts S Hp out D. destruct (W_sys.sent_receive (eit_demux m) eit_parse eit_add pid ts out Hp) as (pks & E & L & R); [|exact D|].
  - eapply Forall_impl; [|exact S]. intros t H. exact (W_sys.pf_sends m t H).
  - exists pks. split; [exact E|]. split; [exact L|]. intros m' p old. destruct (R m' p old) as [q Q]. eexists q, _. split; [exact Q|]. clear.
    revert old. induction ts as [|t ts IH]; intros old; cbn [fold_left last flat_map]; [rewrite ?app_nil_r; repeat split; reflexivity|].
    destruct (IH (eit_add old t)) as (H0 & H1 & H2 & H3 & H4 & H5). rewrite H0, H1, H2, H3, H4, H5.
    rewrite ?app_assoc. destruct ts as [|x ts]; [repeat split; reflexivity|]. rewrite (W_sys.last_default ts x (eit_add old t) old). repeat split; reflexivity.
Qed.
Print Assumptions C63_pf.
Theorem C63_tot : forall m pid ts, Forall tot_sendable ts -> pid < 8192 -> received (tot_demux m) tot_parse pid ts (fun old u =>
  tot_time u = tot_time (last ts old) /\ tot_descs u = tot_descs old ++ flat_map tot_descs ts).
Proof.
  intros m pid ts S Hp out D. destruct (W_sys.sent_receive (tot_demux m) tot_parse tot_add pid ts out Hp) as (pks & E & L & R); [|exact D|].
  - eapply Forall_impl; [|exact S]. intros t H. exact (W_sys.tot_sends m t H).
  - exists pks. split; [exact E|]. split; [exact L|]. intros m' p old. destruct (R m' p old) as [q Q]. eexists q, _. split; [exact Q|]. clear.
    revert old. induction ts as [|t ts IH]; intros old; cbn [fold_left last flat_map]; [rewrite ?app_nil_r; repeat split; reflexivity|].
    destruct (IH (tot_add old t)) as (H0 & H1). rewrite H0, H1.
    rewrite ?app_assoc. destruct ts as [|x ts]; [repeat split; reflexivity|]. rewrite (W_sys.last_default ts x (tot_add old t) old). repeat split; reflexivity.
Qed.
Print Assumptions C63_tot.
(** so a table received twice is not the table *)
Theorem C63_repeated_refuted : exists t out pks, pat_sendable t /\ sent (pat_demux Debug) 0 [t; t] out /\ out = concat pks /\ Forall (fun x => length x = 188%nat) pks /\
  forall m, exists q u, receive m (pat_parse m) psi_default pat_default pks = Ok (q, u) /\ u <> t.
Proof.
  assert (S : pat_sendable ex_pat).
  { split; [|vm_compute; lia]. split; [reflexivity|]. split; [reflexivity|]. repeat constructor. }
  destruct (pat_demux Debug ex_pat 0 5 []) as [[c o]| |] eqn:E; [|vm_compute in E; discriminate|vm_compute in E; discriminate].
  assert (D : sent (pat_demux Debug) 0 [ex_pat; ex_pat] (o ++ o ++ [])).
  { eapply (sent_cons _ _ _ _ 5); [reflexivity|exact E|]. eapply (sent_cons _ _ _ _ 5); [reflexivity|exact E|constructor]. }
  clear E. assert (FS : Forall pat_sendable [ex_pat; ex_pat]) by (constructor; [exact S|constructor; [exact S|constructor]]).
  destruct (C63_pat Debug 0 [ex_pat; ex_pat] FS ltac:(reflexivity) _ D) as (pks & E1 & L & R).
  exists ex_pat, (o ++ o ++ []), pks. split; [exact S|]. split; [exact D|]. split; [exact E1|]. split; [exact L|].
  intros m. destruct (R m psi_default pat_default) as (q & u & Q & _ & _ & I). exists q, u. split; [exact Q|]. intros ->. discriminate I.
Qed.
Print Assumptions C63_repeated_refuted.
(** and after a new version the items of the old one are still there *)
Theorem C63_version_refuted : exists old new out pks, sdt_sendable old /\ sdt_sendable new /\ sdt_version new = 3 /\ sdt_version old = 2 /\
  sent (sdt_demux Debug) 17 [old; new] out /\ out = concat pks /\ Forall (fun x => length x = 188%nat) pks /\
  forall m, exists q u, receive m (sdt_parse m) psi_default sdt_default pks = Ok (q, u) /\ sdt_version u = 3 /\
    exists i, In i (sdt_items u) /\ ~ In i (sdt_items new).
Proof.
  set (a := mkSdt 0x42 2 1 9 [mkSdtI 1 1 0 4 1 []]). set (b := mkSdt 0x42 3 1 9 [mkSdtI 2 1 0 4 1 []]).
  assert (Sa : sdt_sendable a).
  { split; [do 4 (split; [reflexivity|]); constructor; [do 5 (split; [reflexivity|]); split; [constructor|apply Nat.leb_le; vm_compute; reflexivity]|constructor]|split; [constructor; [apply Nat.leb_le; vm_compute; reflexivity|constructor]|split; [constructor; [constructor|constructor]|left; reflexivity]]]. }
  assert (Sb : sdt_sendable b).
  { split; [do 4 (split; [reflexivity|]); constructor; [do 5 (split; [reflexivity|]); split; [constructor|apply Nat.leb_le; vm_compute; reflexivity]|constructor]|split; [constructor; [apply Nat.leb_le; vm_compute; reflexivity|constructor]|split; [constructor; [constructor|constructor]|left; reflexivity]]]. }
  destruct (sdt_demux Debug a 17 5 []) as [[c o]| |] eqn:E; [|vm_compute in E; discriminate|vm_compute in E; discriminate].
  destruct (sdt_demux Debug b 17 5 []) as [[c' o']| |] eqn:E'; [|vm_compute in E'; discriminate|vm_compute in E'; discriminate].
  assert (D : sent (sdt_demux Debug) 17 [a; b] (o ++ o' ++ [])).
  { eapply (sent_cons _ _ _ _ 5); [reflexivity|exact E|]. eapply (sent_cons _ _ _ _ 5); [reflexivity|exact E'|constructor]. }
  clear E E'. assert (FS : Forall sdt_sendable [a; b]) by (constructor; [exact Sa|constructor; [exact Sb|constructor]]).
  destruct (C63_sdt Debug 17 [a; b] FS ltac:(reflexivity) _ D) as (pks & E1 & L & R).
  exists a, b, (o ++ o' ++ []), pks. do 2 (split; [assumption|]). do 2 (split; [reflexivity|]). split; [exact D|]. split; [exact E1|]. split; [exact L|].
  intros m. destruct (R m psi_default sdt_default) as (q & u & Q & _ & V & _ & _ & I). exists q, u. split; [exact Q|]. split; [exact V|].
  exists (mkSdtI 1 1 0 4 1 []). rewrite I. split; [left; reflexivity|]. intros [X|[]]. discriminate X.
Qed.
Print Assumptions C63_version_refuted.
Example C63_ex : exists out, sent (pat_demux Debug) 0 [ex_pat; mkPat 8 0x1234 []] out /\ length out = N.to_nat 376 /\
  exists q, receive Debug (pat_parse Debug) psi_default pat_default (in_packets 2 out) = Ok (q, mkPat 8 0x1234 (pat_items ex_pat)).
Proof.
  eexists. split; [|split; [|eexists]].
  - eapply (sent_cons _ _ _ _ 5); [reflexivity|vm_compute; reflexivity|]. eapply (sent_cons _ _ _ _ 6); [reflexivity|vm_compute; reflexivity|constructor].
  - vm_compute. reflexivity.
  - vm_compute. reflexivity.
Qed.
