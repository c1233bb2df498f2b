(** Property theorems C87: what can make a receiver abort. Specification: S_stops. *)
From Verif Require Import Prelude Layout S_ts S_crc S_utils S_psi M_text M_ts M_psi M_drive M_recv M_desc S_desc M_tables S_tables Props_tables Props_sections
  M_reader S_reader M_system S_system Props_system S_loss Props_loss S_origin Props_origin S_stops.
From Verif Require P_psi P_tab2 P_packed P_origin P_stops Facts.

(** * C87 *)
(** the packets that a new Psi takes are exactly the harmless ones; any other Psi takes them too *)
Theorem C87_packet : forall m x, ts_packet x -> harmless m x <-> exists p, psi_mux m psi_default x = Ok p.
Proof. exact P_stops.harmless_default. Qed.
Print Assumptions C87_packet.
Theorem C87_any_psi : forall m p x, ts_packet x -> p_cc p < 16 -> (exists q, psi_mux m psi_default x = Ok q) -> exists q, psi_mux m p x = Ok q.
Proof. intros m p x X C H. apply P_stops.harmless_mux; [exact X|exact C|]. apply P_stops.harmless_default; assumption. Qed.
Print Assumptions C87_any_psi.
(** any packets in any order: a receiver goes on as long as the packets are harmless and the sections that it has to
    look at, in one piece and with the right CRC, can be read *)
Definition goes_on {T} (parse : mode -> T -> psi -> res T) (right : list (list N) -> list (list N)) (safe : mode -> list N -> Prop) (cut : list (list N) -> Prop) : Prop :=
  forall m pks t, Forall ts_packet pks -> Forall (harmless m) pks -> ~ cut pks -> (forall s, part_of pks s -> right [s] = [s] -> safe m s) ->
    exists q u, receive m (parse m) psi_default t pks = Ok (q, u).
Definition never_cut (pks : list (list N)) : Prop := False.
Lemma from_survives {T} (parse : mode -> T -> psi -> res T) f safe (cut : list (list N) -> Prop) :
  (forall m, P_stops.survives m (parse m) f (safe m) cut) -> (forall a b, cut a -> cut (a ++ b)) -> goes_on parse (filter f) safe cut.
Proof.
  intros X C m pks t P H N S. apply (P_stops.survive_run m (parse m) f (safe m) cut (X m) C pks [] psi_default t P H eq_refl N).
  cbn [app]. intros s I F. apply S; [exact I|]. cbn [filter]. rewrite F. reflexivity.
Qed.
Theorem C87_pat : forall m pks t, Forall ts_packet pks -> Forall (harmless m) pks -> exists q u, receive m (pat_parse m) psi_default t pks = Ok (q, u).
Proof. intros m pks t P H. apply (from_survives pat_parse _ (fun _ _ => True) never_cut P_stops.pat_survives (fun _ _ x => x) m pks t P H); [exact (fun x => x)|trivial]. Qed.
Print Assumptions C87_pat.
Theorem C87_pmt : goes_on pmt_parse (heard id_pmt 16) pmt_safe never_cut.
Proof. exact (from_survives pmt_parse _ pmt_safe never_cut P_stops.pmt_survives (fun _ _ x => x)). Qed.
Print Assumptions C87_pmt.
Theorem C87_nit : goes_on nit_parse (heard id_nit 16) nit_safe never_cut.
Proof. exact (from_survives nit_parse _ nit_safe never_cut P_stops.nit_survives (fun _ _ x => x)). Qed.
Print Assumptions C87_nit.
Theorem C87_sdt : goes_on sdt_parse (heard id_sdt 15) sdt_safe never_cut.
Proof. exact (from_survives sdt_parse _ sdt_safe never_cut P_stops.sdt_survives (fun _ _ x => x)). Qed.
Print Assumptions C87_sdt.
Theorem C87_eit : goes_on eit_parse (heard id_eit 18) eit_safe never_cut.
Proof. exact (from_survives eit_parse _ eit_safe never_cut P_stops.eit_survives (fun _ _ x => x)). Qed.
Print Assumptions C87_eit.
Theorem C87_tot : goes_on tot_parse (heard id_tot 14) tot_safe never_cut.
Proof. exact (from_survives tot_parse _ tot_safe never_cut P_stops.tot_survives (fun _ _ x => x)). Qed.
Print Assumptions C87_tot.
(** the time and date section has to be in one packet as well *)
Theorem C87_tdt : goes_on tdt_parse heard_tdt tdt_safe tdt_cut.
Proof. exact (from_survives tdt_parse _ tdt_safe tdt_cut P_stops.tdt_survives P_stops.tdt_cut_more). Qed.
Print Assumptions C87_tdt.
Theorem C87_tdt_cut_refuted : ~ goes_on tdt_parse heard_tdt tdt_safe never_cut.
Proof.
  intros H. destruct (H Release [bad_tdt] 0) as (q & u & E); [repeat constructor| |exact (fun x => x)|exact (fun _ _ _ => I)|vm_compute in E; discriminate].
  constructor; [|constructor]. intros _. split; [discriminate|]. intros _ _. right. right. vm_compute. discriminate.
Qed.
Print Assumptions C87_tdt_cut_refuted.
(** a pointer_field that leads out of the packet is not harmless, whatever the build; the same section with and without
    the right CRC: it can not be read, and only the first stops the receiver *)
Definition out : list N := encode (mkPacket 0x47 0 true 0 17 0 true 9 (Some (repeat 0 100)) (100 :: repeat 1 82)).
Definition wrong_crc (s : list N) : list N := firstn (length s - 1) s ++ [(nth (length s - 1) s 0 + 1) mod 256].
Example C87_ex : (forall m, ~ harmless m out) /\
  (forall m, ~ nit_safe m bad_nit /\ Forall (harmless m) (section_packets 16 0 bad_nit) /\ part_of (section_packets 16 0 bad_nit) bad_nit /\
    receive m (nit_parse m) psi_default nit_default (section_packets 16 0 bad_nit) = Panic) /\
  (forall m, exists q, receive m (nit_parse m) psi_default nit_default (section_packets 16 0 (wrong_crc bad_nit)) = Ok (q, nit_default)).
Proof.
  split; [|split].
  - intros m H. specialize (H eq_refl). destruct H as (_ & H). specialize (H eq_refl eq_refl). cbv zeta in H.
    replace (nth (N.to_nat (payload_at out)) out 0) with 100 in H by (vm_compute; reflexivity).
    replace (payload_at out) with 105 in H by (vm_compute; reflexivity). lia.
  - intros m. split; [|split; [|split]].
    + intros H. assert (L : (length bad_nit < 16 + N.to_nat (field bad_nit 68 12))%nat) by (apply Nat.ltb_lt; vm_compute; reflexivity).
      destruct m; cbn [nit_safe] in H; cbv zeta in H; [|destruct H as (H & _); lia].
      destruct H as (t & ds & items & _ & H & _). lia.
    + constructor; [|constructor]. intros _. split; [discriminate|]. intros _ _. left. vm_compute. reflexivity.
    + eexists [], (section_packets 16 0 bad_nit), [], [], _. split; [vm_compute; reflexivity|]. split; [vm_compute; auto|]. split; [repeat constructor|].
      vm_compute. reflexivity.
    + destruct m; vm_compute; reflexivity.
  - intros []; eexists; vm_compute; reflexivity.
Qed.
