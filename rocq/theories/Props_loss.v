(** Property theorems C70: loss of packets on the way to a table. Specification: S_loss. *)
From Verif Require Import Prelude Layout S_ts S_crc S_utils S_psi M_text M_ts M_psi M_drive M_recv M_desc S_desc M_tables S_tables Props_tables
  M_reader S_reader M_system S_system Props_system S_loss.
From Verif Require Facts P_psi P_tab2 P_packed P_loss.

(** * C70 *)
(** sections in packets, some of which are lost: as long as the counters show every gap, the sections
    of which all packets arrive are read once and in order, and the others are not *)
Theorem C70_pat : forall m p old cc xs ts, transmitted xs -> counted cc (sent_packets (on_the_way xs)) -> gaps_show Nothing (on_the_way xs) ->
  Forall2 pat_reads (heard id_pat 12 (intact xs)) ts ->
  exists q, receive m (pat_parse m) p old (map encode (arrived (on_the_way xs))) = Ok (q, fold_left pat_add ts old).
Proof. intros m p old cc xs ts H C G. exact (P_loss.all_sections m _ _ _ _ (P_packed.pat_readable m) xs H Nothing cc p old ts C G I). Qed.
Print Assumptions C70_pat.
Theorem C70_pmt : forall m p old cc xs ts, transmitted xs -> counted cc (sent_packets (on_the_way xs)) -> gaps_show Nothing (on_the_way xs) ->
  Forall2 P_tab2.pmt_seen (heard id_pmt 16 (intact xs)) ts ->
  exists q, receive m (pmt_parse m) p old (map encode (arrived (on_the_way xs))) = Ok (q, fold_left pmt_add ts old).
Proof. intros m p old cc xs ts H C G. exact (P_loss.all_sections m _ _ _ _ (P_packed.pmt_readable m) xs H Nothing cc p old ts C G I). Qed.
Print Assumptions C70_pmt.
Theorem C70_nit : forall m p old cc xs ts, transmitted xs -> counted cc (sent_packets (on_the_way xs)) -> gaps_show Nothing (on_the_way xs) ->
  Forall2 nit_reads (heard id_nit 16 (intact xs)) ts ->
  exists q, receive m (nit_parse m) p old (map encode (arrived (on_the_way xs))) = Ok (q, fold_left nit_add ts old).
Proof. intros m p old cc xs ts H C G. exact (P_loss.all_sections m _ _ _ _ (P_packed.nit_readable m) xs H Nothing cc p old ts C G I). Qed.
Print Assumptions C70_nit.
Theorem C70_sdt : forall m p old cc xs ts, transmitted xs -> counted cc (sent_packets (on_the_way xs)) -> gaps_show Nothing (on_the_way xs) ->
  Forall2 sdt_reads (heard id_sdt 15 (intact xs)) ts ->
  exists q, receive m (sdt_parse m) p old (map encode (arrived (on_the_way xs))) = Ok (q, fold_left sdt_add ts old).
Proof. intros m p old cc xs ts H C G. exact (P_loss.all_sections m _ _ _ _ (P_packed.sdt_readable m) xs H Nothing cc p old ts C G I). Qed.
Print Assumptions C70_sdt.
Theorem C70_eit : forall m p old cc xs ts, transmitted xs -> counted cc (sent_packets (on_the_way xs)) -> gaps_show Nothing (on_the_way xs) ->
  Forall2 eit_reads (heard id_eit 18 (intact xs)) ts ->
  exists q, receive m (eit_parse m) p old (map encode (arrived (on_the_way xs))) = Ok (q, fold_left eit_add ts old).
Proof. intros m p old cc xs ts H C G. exact (P_loss.all_sections m _ _ _ _ (P_packed.eit_readable m) xs H Nothing cc p old ts C G I). Qed.
Print Assumptions C70_eit.
Theorem C70_tot : forall m p old cc xs ts, transmitted xs -> counted cc (sent_packets (on_the_way xs)) -> gaps_show Nothing (on_the_way xs) ->
  Forall2 tot_reads (heard id_tot 14 (intact xs)) ts ->
  exists q, receive m (tot_parse m) p old (map encode (arrived (on_the_way xs))) = Ok (q, fold_left tot_add ts old).
Proof. intros m p old cc xs ts H C G. exact (P_loss.all_sections m _ _ _ _ (P_packed.tot_readable m) xs H Nothing cc p old ts C G I). Qed.
Print Assumptions C70_tot.
(** the packets of this library are of this kind *)
Theorem C70_own_packets : forall pid cc ss, Forall framed ss -> cc < 16 ->
  exists ls, stream pid cc ss = map encode (concat ls) /\ Forall2 carries ls ss /\ counted ((cc + 15) mod 16) (concat ls).
Proof. intros pid cc ss F. exact (P_loss.stream_counted pid ss F cc). Qed.
Print Assumptions C70_own_packets.
(** the counters show every gap if no section has more than 17 packets (17 packets of this library hold
    3127 bytes) and the first packet of every section of more than one packet arrives *)
Theorem C70_starts_arrive : forall cc xs, transmitted xs -> counted cc (sent_packets (on_the_way xs)) ->
  Forall (fun x => (length (fst x) <= 17)%nat /\ forall k b l, fst x = (k, b) :: l -> b = true \/ l = []) xs -> gaps_show Nothing (on_the_way xs).
Proof. intros cc xs T C. exact (P_loss.starts_arrive xs T cc Nothing C). Qed.
Print Assumptions C70_starts_arrive.

(** 16 packets lost in a row do not show: the receiver reads a section that was never sent *)
Definition pat_a : list N := [0; 0xB0; 21; 0; 1; 0xC1; 0; 0; 0; 1; 0xE1; 1; 0; 2; 0xE1; 2; 0; 3; 0xE1; 3; 66; 224; 202; 42].
(** differs by the generator of the CRC in two places *)
Definition pat_b : list N := [0; 0xB0; 21; 0; 1; 0xC1; 0; 0; 1; 5; 0x20; 0x1C; 0xB7; 2; 0xE0; 6; 0xC1; 0x1E; 0x56; 3; 66; 224; 202; 42].
Definition split_13 (cc : N) (s : list N) : list packet := [half true cc (0 :: firstn 13 s); half false ((cc + 1) mod 16) (skipn 13 s)].
Definition alone (cc : N) (s : list N) : list packet := [half true cc (0 :: s)].
Lemma half_ok pusi cc pay : cc < 16 -> bytes pay -> (length pay <= 183)%nat -> packet_ok (half pusi cc pay).
Proof.
  intros H B L. split; [|split; [exact H|split; [exact B|]]].
  - unfold encode. rewrite !app_length, P_psi.ts_header_length. cbn [half k_af k_payload af_bytes length]. rewrite repeat_length. lia.
  - cbn [half k_af af_bytes]. apply Facts.bytes_cons. split; [rewrite repeat_length; lia|]. apply Facts.bytes_repeat. lia.
Qed.
Lemma split_carries cc s : cc < 16 -> bytes s -> length s = 24%nat -> carries (split_13 cc s) s.
Proof.
  intros H B L. exists (half true cc (0 :: firstn 13 s)), [half false ((cc + 1) mod 16) (skipn 13 s)], (firstn 13 s), []. split; [reflexivity|].
  split; [apply half_ok; [exact H|apply Facts.bytes_cons; split; [lia|apply Facts.bytes_firstn; exact B]|change (S (length (firstn 13 s)) <= 183)%nat; rewrite firstn_length; lia]|].
  do 3 (split; [reflexivity|]).
  split; [split; [apply half_ok; [apply N.mod_lt; discriminate|apply Facts.bytes_skipn; exact B|rewrite skipn_length; lia]|]|].
  - cbn [half k_haspl k_pusi k_payload k_cc continues]. split; [reflexivity|]. split; [|auto]. intros E. apply (f_equal (@length N)) in E. rewrite skipn_length in E. cbn in E. lia.
  - cbn [filter half k_haspl k_payload]. split; [rewrite firstn_length, skipn_length; lia|].
    split; [unfold carried; cbn [filter half k_haspl map k_payload concat]; rewrite !app_nil_r; apply firstn_skipn|].
    intros n Hn. cbn [length] in Hn. assert (n = 0%nat) by lia. subst n. change (carried (firstn 0 [half false ((cc + 1) mod 16) (skipn 13 s)])) with (@nil N). rewrite app_nil_r, firstn_length. lia.
Qed.
Lemma alone_carries cc s : cc < 16 -> bytes s -> length s = 24%nat -> carries (alone cc s) s.
Proof.
  intros H B L. exists (half true cc (0 :: s)), [], s, []. split; [reflexivity|].
  split; [apply half_ok; [exact H|apply Facts.bytes_cons; split; [lia|exact B]|cbn [length]; lia]|].
  do 3 (split; [reflexivity|]). split; [exact I|]. split; [exact I|]. split; [reflexivity|]. intros n Hn. cbn [length] in Hn. lia.
Qed.
Definition mark (b : bool) (l : list packet) : marked := map (fun k => (k, b)) l.
Definition sixteen_lost : list (marked * list N) :=
  ([(nth 0 (split_13 5 pat_a) no_payload, true); (nth 1 (split_13 5 pat_a) no_payload, false)], pat_a) ::
  map (fun cc => (mark false (alone cc pat_a), pat_a)) [7; 8; 9; 10; 11; 12; 13; 14; 15; 0; 1; 2; 3; 4] ++
  [([(nth 0 (split_13 5 pat_b) no_payload, false); (nth 1 (split_13 5 pat_b) no_payload, true)], pat_b)].
Theorem C70_sixteen_refuted : exists xs s u, transmitted xs /\ counted 4 (sent_packets (on_the_way xs)) /\
  ~ In s (map snd xs) /\ pat_reads s u /\ Forall (fun x => forall v, pat_reads (snd x) v -> v <> u) xs /\
  forall m, exists q, receive m (pat_parse m) psi_default pat_default (map encode (arrived (on_the_way xs))) = Ok (q, u).
Proof.
  exists sixteen_lost, (firstn 13 pat_a ++ skipn 13 pat_b). eexists.
  assert (Ba : bytes pat_a) by (vm_compute; repeat constructor). assert (Bb : bytes pat_b) by (vm_compute; repeat constructor).
  assert (Fa : framed pat_a) by (split; [exact Ba|reflexivity]). assert (Fb : framed pat_b) by (split; [exact Bb|reflexivity]).
  split; [|split; [|split; [|split; [|split]]]].
  - constructor; [split; [apply (split_carries 5 pat_a); [reflexivity|exact Ba|reflexivity]|exact Fa]|]. apply Forall_app. split.
    + apply Forall_map. apply Forall_forall. intros cc Hc. split; [|exact Fa]. apply (alone_carries cc pat_a); [|exact Ba|reflexivity].
      cbn [In] in Hc. repeat (destruct Hc as [<-|Hc]; [reflexivity|]). contradiction.
    + constructor; [split; [apply (split_carries 5 pat_b); [reflexivity|exact Bb|reflexivity]|exact Fb]|constructor].
  - cbn. repeat split.
  - cbn [sixteen_lost map app snd In]. intros H. repeat (destruct H as [H|H]; [discriminate H|]). exact H.
  - vm_compute. reflexivity.
  - apply Forall_forall. intros x Hx v Hv. cbn [sixteen_lost map app In] in Hx. unfold pat_reads in Hv.
    assert (Ex : snd x = pat_a \/ snd x = pat_b) by (repeat (destruct Hx as [<-|Hx]; [first [left; reflexivity|right; reflexivity]|]); contradiction).
    destruct Ex as [Ex|Ex]; rewrite Ex in Hv; vm_compute in Hv; subst v; discriminate.
  - intros []; eexists; vm_compute; reflexivity.
Qed.
Print Assumptions C70_sixteen_refuted.

(** the start of the second section is lost, as is the end of the third; the first and the last are read *)
Definition some_lost : list (marked * list N) :=
  [(mark true (split_13 5 pat_a), pat_a);
   ([(nth 0 (split_13 7 pat_b) no_payload, false); (nth 1 (split_13 7 pat_b) no_payload, true)], pat_b);
   ([(nth 0 (split_13 9 pat_b) no_payload, true); (nth 1 (split_13 9 pat_b) no_payload, false)], pat_b);
   (mark true (alone 11 pat_b), pat_b)].
Example C70_ex : transmitted some_lost /\ counted 4 (sent_packets (on_the_way some_lost)) /\ gaps_show Nothing (on_the_way some_lost) /\
  intact some_lost = [pat_a; pat_b] /\ length (arrived (on_the_way some_lost)) = 5%nat /\
  (forall m, exists q t, receive m (pat_parse m) psi_default pat_default (map encode (arrived (on_the_way some_lost))) = Ok (q, t) /\
     length (pat_items t) = 6%nat).
Proof.
  assert (Ba : bytes pat_a) by (vm_compute; repeat constructor). assert (Bb : bytes pat_b) by (vm_compute; repeat constructor).
  assert (Fa : framed pat_a) by (split; [exact Ba|reflexivity]). assert (Fb : framed pat_b) by (split; [exact Bb|reflexivity]).
  split; [|split; [|split; [|split; [|split]]]].
  - constructor; [split; [apply (split_carries 5 pat_a); [reflexivity|exact Ba|reflexivity]|exact Fa]|].
    constructor; [split; [apply (split_carries 7 pat_b); [reflexivity|exact Bb|reflexivity]|exact Fb]|].
    constructor; [split; [apply (split_carries 9 pat_b); [reflexivity|exact Bb|reflexivity]|exact Fb]|].
    constructor; [split; [apply (alone_carries 11 pat_b); [reflexivity|exact Bb|reflexivity]|exact Fb]|constructor].
  - cbn. repeat split.
  - cbn. split; [discriminate|exact I].
  - reflexivity.
  - reflexivity.
  - intros []; eexists; eexists; (split; [vm_compute; reflexivity|reflexivity]).
Qed.
