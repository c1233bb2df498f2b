(** Property theorems C83: packets that are sent twice. Specification: S_double. *)
From Verif Require Import Prelude Layout S_ts S_crc S_utils S_psi M_text M_ts M_psi M_drive M_recv M_desc S_desc M_tables S_tables Props_tables
  M_reader S_reader M_system S_system Props_system S_loss Props_loss S_join Props_join S_double.
From Verif Require P_psi P_tab2 P_packed P_double Facts.

(** * C83 *)
(** sections in packets of which any are sent twice: exactly what a table gets, [got], whatever the receiver held before *)
Definition gets {T} (parse : mode -> T -> psi -> res T) (ids : N -> bool) (min : nat) (rd : list N -> T -> Prop) (add : T -> T -> T) : Prop :=
  forall m p t xs ts, repeated xs -> Forall2 rd (heard ids min (got xs)) ts ->
    exists q, receive m (parse m) p t (map encode (concat (map (fun x => copies (fst x)) xs))) = Ok (q, fold_left add ts t).
Theorem C83_pat : gets pat_parse id_pat 12 pat_reads pat_add.
Proof. intros m p t xs ts H. exact (P_double.all_got m _ _ _ _ (P_packed.pat_readable m) xs H p t ts). Qed.
Print Assumptions C83_pat.
Theorem C83_pmt : gets pmt_parse id_pmt 16 P_tab2.pmt_seen pmt_add.
Proof. intros m p t xs ts H. exact (P_double.all_got m _ _ _ _ (P_packed.pmt_readable m) xs H p t ts). Qed.
Print Assumptions C83_pmt.
Theorem C83_nit : gets nit_parse id_nit 16 nit_reads nit_add.
Proof. intros m p t xs ts H. exact (P_double.all_got m _ _ _ _ (P_packed.nit_readable m) xs H p t ts). Qed.
Print Assumptions C83_nit.
Theorem C83_sdt : gets sdt_parse id_sdt 15 sdt_reads sdt_add.
Proof. intros m p t xs ts H. exact (P_double.all_got m _ _ _ _ (P_packed.sdt_readable m) xs H p t ts). Qed.
Print Assumptions C83_sdt.
Theorem C83_eit : gets eit_parse id_eit 18 eit_reads eit_add.
Proof. intros m p t xs ts H. exact (P_double.all_got m _ _ _ _ (P_packed.eit_readable m) xs H p t ts). Qed.
Print Assumptions C83_eit.
Theorem C83_tot : gets tot_parse id_tot 14 tot_reads tot_add.
Proof. intros m p t xs ts H. exact (P_double.all_got m _ _ _ _ (P_packed.tot_readable m) xs H p t ts). Qed.
Print Assumptions C83_tot.
(** if only first and last packets of sections are sent twice, nothing is lost: a section comes once, or twice if it is all in one packet sent twice *)
Theorem C83_ends : forall xs, repeated xs -> Forall (fun x => only_ends (fst x)) xs ->
  got xs = concat (map (fun x => repeat (snd x) (match fst x with [(_, true)] => 2 | _ => 1 end)) xs).
Proof.
  intros xs H E. unfold got. f_equal. apply map_ext_in. intros [l s] I. unfold repeated in H. rewrite Forall_forall in H, E. pose proof (H _ I) as (Ca & _). pose proof (E _ I) as E1. cbn [fst snd] in *.
  apply P_double.ends_got; [|exact E1]. intros ->. destruct Ca as (k & ks & c & st & Z & _). discriminate.
Qed.
Print Assumptions C83_ends.
(** a packet in the middle sent twice: nothing but what looks like a section in the packets behind it *)
Theorem C83_middle : forall k b l1 k1 l2 s, l2 <> [] ->
  got_of ((k, b) :: map (fun x => (x, false)) l1 ++ (k1, true) :: map (fun x => (x, false)) l2, s) = taken_for l2.
Proof. intros k b l1 k1 l2 s. exact (P_double.middle_got k b l1 k1 l2 s). Qed.
Print Assumptions C83_middle.
(** a caller that leaves out a packet equal to the one before gets every packet once *)
Theorem C83_dropped : forall cc l, counted cc (sent_packets l) -> Forall packet_ok (sent_packets l) ->
  drop_repeats (map encode (copies l)) = map encode (sent_packets l).
Proof. intros cc l. exact (P_double.drop_copies l cc). Qed.
Print Assumptions C83_dropped.

(** a PAT of 100 programs is in three packets; the second of them sent twice, and the PAT is lost *)
Definition wide : list N := finished ([0; 0xB0; 0; 0; 1; 0xC1; 0; 0] ++ concat (map (fun n => [0; N.of_nat n; 0xE1; N.of_nat n]) (seq 1 100))).
Definition wide_packets (b0 b1 b2 : bool) : marked :=
  let d := pad184 (0 :: wide) in
  [(plain true 15 (firstn 184 d), b0); (plain false 0 (firstn 184 (skipn 184 d)), b1); (plain false 1 (skipn 368 d), b2)].
Lemma bytes_by l : forallb (fun b => b <? 256) l = true -> bytes l.
Proof. intros H. apply Forall_forall. intros x I. rewrite forallb_forall in H. apply N.ltb_lt. exact (H x I). Qed.
Lemma wide_repeated b0 b1 b2 : repeated [(wide_packets b0 b1 b2, wide)].
Proof.
  assert (B : bytes (pad184 (0 :: wide))) by (apply bytes_by; vm_compute; reflexivity).
  assert (B' : forall n, bytes (firstn 184 (skipn n (pad184 (0 :: wide))))) by (intros n; apply Facts.bytes_firstn, Facts.bytes_skipn, B).
  assert (Bl : bytes (skipn 368 (pad184 (0 :: wide)))) by apply Facts.bytes_skipn, B.
  assert (O : forall pusi cc pay, cc < 16 -> bytes pay -> (length pay =? 184)%nat = true -> packet_ok (plain pusi cc pay)).
  { intros pusi cc pay H H' L. apply plain_ok; [exact H|exact H'|]. apply Nat.eqb_eq. exact L. }
  constructor; [|constructor]. cbn [fst snd]. split; [|split; [|split]].
  - exists (plain true 15 (firstn 184 (pad184 (0 :: wide)))), (tl (sent_packets (wide_packets b0 b1 b2))), (firstn 183 wide), (repeat 255 139).
    split; [reflexivity|]. split; [apply O; [reflexivity|exact (B' 0%nat)|reflexivity]|]. do 3 (split; [reflexivity|]).
    split; [|split; [vm_compute; lia|split; [reflexivity|]]].
    + cbn [wide_packets sent_packets map fst tl continues plain k_haspl k_pusi k_payload k_cc].
      split; [apply O; [reflexivity|exact (B' 184%nat)|reflexivity]|]. split; [reflexivity|]. split; [discriminate|]. split; [reflexivity|].
      split; [apply O; [reflexivity|exact Bl|reflexivity]|]. split; [reflexivity|]. split; [discriminate|]. split; [reflexivity|exact I].
    + intros n Hn. cbn [wide_packets sent_packets map fst tl length] in Hn. destruct n as [|[|n]]; [vm_compute; lia|vm_compute; lia|lia].
  - split; [apply bytes_by; vm_compute; reflexivity|reflexivity].
  - exists 14. cbn. repeat split.
  - cbn [wide_packets sent_packets map fst tl]. constructor; [vm_compute; lia|]. constructor; [vm_compute; lia|constructor].
Qed.
Theorem C83_lost_refuted : exists l s u, repeated [(l, s)] /\ heard id_pat 12 [s] = [s] /\ pat_reads s u /\ length (pat_items u) = 100%nat /\
  forall m, exists q, receive m (pat_parse m) psi_default pat_default (map encode (copies l)) = Ok (q, pat_default).
Proof.
  exists (wide_packets false true false), wide. eexists. split; [apply wide_repeated|]. split; [vm_compute; reflexivity|]. split; [reflexivity|]. split; [vm_compute; reflexivity|].
  intros m. destruct (C83_pat m psi_default pat_default [(wide_packets false true false, wide)] [] (wide_repeated _ _ _)) as [q E]; [vm_compute; constructor|].
  exists q. cbn [map concat fst] in E. rewrite app_nil_r in E. exact E.
Qed.
Print Assumptions C83_lost_refuted.
(** the first and the last packet twice: read once; a section in one packet that is sent twice: read twice *)
Example C83_ex : got [(wide_packets true false true, wide)] = [wide] /\ heard id_pat 12 (got [(wide_packets true true true, wide)]) = [] /\
  got [([(half true 3 (0 :: pat_a), true)], pat_a)] = [pat_a; pat_a] /\
  drop_repeats (map encode (copies [(half true 3 (0 :: pat_a), true); (half true 4 (0 :: pat_a), false); (half true 5 (0 :: pat_b), true)])) =
    map encode [half true 3 (0 :: pat_a); half true 4 (0 :: pat_a); half true 5 (0 :: pat_b)].
Proof. split; [reflexivity|]. split; [vm_compute; reflexivity|]. split; [reflexivity|]. vm_compute. reflexivity. Qed.
