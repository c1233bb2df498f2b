(** Property theorems C71: bit errors and loss of packets on the way to a table. Specification: S_noise. *)
From Verif Require Import Prelude Layout S_ts S_crc S_utils S_psi M_text M_ts M_psi M_drive M_recv M_desc S_desc M_tables S_tables Props_tables
  M_reader S_reader M_system S_system Props_system S_loss Props_loss S_noise.
From Verif Require Facts P_tab2 P_packed P_noise.

(** * C71 *)
(** sections whose packets are lost or hit by bit errors (up to three bits, or any within 32, of each
    section): the table gets those that arrive whole and unharmed, once and in order, and nothing else *)
Theorem C71_pat : forall m p old cc xs ts, Forall (noisy 12) xs -> counted cc (sent_packets (way xs)) -> gaps_show Nothing (way xs) ->
  Forall2 pat_reads (heard id_pat 12 (unharmed xs)) ts ->
  exists q, receive m (pat_parse m) p old (map encode (arrived (way xs))) = Ok (q, fold_left pat_add ts old).
Proof. intros m p old cc xs ts. exact (P_noise.through_noise m _ _ _ _ _ (P_packed.pat_readable m) p old cc xs ts). Qed.
Print Assumptions C71_pat.
Theorem C71_pmt : forall m p old cc xs ts, Forall (noisy 16) xs -> counted cc (sent_packets (way xs)) -> gaps_show Nothing (way xs) ->
  Forall2 P_tab2.pmt_seen (heard id_pmt 16 (unharmed xs)) ts ->
  exists q, receive m (pmt_parse m) p old (map encode (arrived (way xs))) = Ok (q, fold_left pmt_add ts old).
Proof. intros m p old cc xs ts. exact (P_noise.through_noise m _ _ _ _ _ (P_packed.pmt_readable m) p old cc xs ts). Qed.
Print Assumptions C71_pmt.
Theorem C71_nit : forall m p old cc xs ts, Forall (noisy 16) xs -> counted cc (sent_packets (way xs)) -> gaps_show Nothing (way xs) ->
  Forall2 nit_reads (heard id_nit 16 (unharmed xs)) ts ->
  exists q, receive m (nit_parse m) p old (map encode (arrived (way xs))) = Ok (q, fold_left nit_add ts old).
Proof. intros m p old cc xs ts. exact (P_noise.through_noise m _ _ _ _ _ (P_packed.nit_readable m) p old cc xs ts). Qed.
Print Assumptions C71_nit.
Theorem C71_sdt : forall m p old cc xs ts, Forall (noisy 15) xs -> counted cc (sent_packets (way xs)) -> gaps_show Nothing (way xs) ->
  Forall2 sdt_reads (heard id_sdt 15 (unharmed xs)) ts ->
  exists q, receive m (sdt_parse m) p old (map encode (arrived (way xs))) = Ok (q, fold_left sdt_add ts old).
Proof. intros m p old cc xs ts. exact (P_noise.through_noise m _ _ _ _ _ (P_packed.sdt_readable m) p old cc xs ts). Qed.
Print Assumptions C71_sdt.
Theorem C71_eit : forall m p old cc xs ts, Forall (noisy 18) xs -> counted cc (sent_packets (way xs)) -> gaps_show Nothing (way xs) ->
  Forall2 eit_reads (heard id_eit 18 (unharmed xs)) ts ->
  exists q, receive m (eit_parse m) p old (map encode (arrived (way xs))) = Ok (q, fold_left eit_add ts old).
Proof. intros m p old cc xs ts. exact (P_noise.through_noise m _ _ _ _ _ (P_packed.eit_readable m) p old cc xs ts). Qed.
Print Assumptions C71_eit.
Theorem C71_tot : forall m p old cc xs ts, Forall (noisy 14) xs -> counted cc (sent_packets (way xs)) -> gaps_show Nothing (way xs) ->
  Forall2 tot_reads (heard id_tot 14 (unharmed xs)) ts ->
  exists q, receive m (tot_parse m) p old (map encode (arrived (way xs))) = Ok (q, fold_left tot_add ts old).
Proof. intros m p old cc xs ts. exact (P_noise.through_noise m _ _ _ _ _ (P_packed.tot_readable m) p old cc xs ts). Qed.
Print Assumptions C71_tot.
(** the sync byte, the error indicator, the priority bit, the PID and the scrambling bits of a packet make no
    difference: a packet that the demodulator has marked as damaged is used like any other *)
Definition alike (a b : list N) : Prop :=
  length a = 188%nat /\ length b = 188%nat /\ bytes a /\ bytes b /\
  flag a 9 = flag b 9 /\ flag a 26 = flag b 26 /\ flag a 27 = flag b 27 /\ field a 28 4 = field b 28 4 /\ skipn 4 a = skipn 4 b.
Theorem C71_indicator_ignored : forall T m (parse : T -> psi -> res T) p t l l',
  Forall2 (fun a b => alike a b /\ (flag a 26 = true -> field a 32 8 < 251)) l l' -> receive m parse p t l = receive m parse p t l'.
Proof. intros T m parse p t l l' H. exact (P_noise.alike_receive m parse l l' H p t). Qed.
Print Assumptions C71_indicator_ignored.

(** the condition on the length field is needed: one bit of it is hit, and a PAT is read that was not sent *)
Definition pat_long : list N :=
  [0; 176; 25; 0; 1; 193; 0; 0; 0; 1; 225; 1; 0; 2; 225; 2; 11; 237; 166; 153; 0; 9; 225; 9; 158; 246; 148; 11].
Definition hit (s e : list N) : trip := mkTrip [with_section s] (mark true [with_section (xor_bytes s e)]) s.
Lemma hit_placed s e : bytes s -> bytes e -> length e = length s -> (length s <= 183)%nat ->
  Forall2 in_place (t_sent (hit s e)) (sent_packets (t_got (hit s e))).
Proof.
  intros B B' E L. assert (Lx : length (xor_bytes s e) = length s) by (apply P_crc.xor_bytes_length; congruence).
  constructor; [|constructor]. do 4 (split; [reflexivity|]).
  cbn [fst with_section k_payload length]. rewrite !app_length, Lx. split; [reflexivity|].
  apply Facts.bytes_cons. split; [lia|]. apply Facts.bytes_app. split; [apply P_crc.xor_bytes_bytes; assumption|apply Facts.bytes_repeat; lia].
Qed.
Theorem C71_length_refuted : exists x u, carries (t_sent x) (t_section x) /\ framed (t_section x) /\
  Forall2 in_place (t_sent x) (sent_packets (t_got x)) /\ hd 0 (carried (sent_packets (t_got x))) = 0 /\
  few_errors (t_section x) (t_seen x) /\ crc_spec (t_section x) = 0 /\ (forall v, pat_reads (t_section x) v -> v <> u) /\
  forall m, exists q, receive m (pat_parse m) psi_default pat_default (map encode (arrived (way [x]))) = Ok (q, u) /\ length (pat_items u) = 2%nat.
Proof.
  exists (hit pat_long ([0; 0; 8] ++ repeat 0 25)). eexists.
  assert (B : bytes pat_long) by (vm_compute; repeat constructor). assert (B' : bytes ([0; 0; 8] ++ repeat 0 25)) by (vm_compute; repeat constructor).
  split; [apply with_section_carries; [exact B|cbn; lia]|]. split; [split; [exact B|reflexivity]|].
  split; [apply hit_placed; [exact B|exact B'|reflexivity|cbn; lia]|]. split; [reflexivity|].
  split; [exists ([0; 0; 8] ++ repeat 0 25); split; [exact B'|]; split; [reflexivity|]; split; [vm_compute; reflexivity|left; vm_compute; lia]|].
  split; [vm_compute; reflexivity|]. split; [|intros []; eexists; (split; [vm_compute; reflexivity|reflexivity])].
  intros v Hv. unfold pat_reads in Hv. cbn [hit t_section] in Hv. vm_compute in Hv. subst v. discriminate.
Qed.
Print Assumptions C71_length_refuted.
(** a time section has no CRC: one bit is hit and another time is read *)
Theorem C71_tdt_refuted : exists x t u, carries (t_sent x) (t_section x) /\ framed (t_section x) /\
  Forall2 in_place (t_sent x) (sent_packets (t_got x)) /\ hd 0 (carried (sent_packets (t_got x))) = 0 /\ section_length (t_seen x) = section_length (t_section x) /\
  few_errors (t_section x) (t_seen x) /\ tdt_reads (t_section x) t /\ t <> u /\
  forall m, exists q, receive m (tdt_parse m) psi_default 0 (map encode (arrived (way [x]))) = Ok (q, u).
Proof.
  exists (hit ex_tdt_time [0; 0; 0; 0; 1; 0; 0; 0]). do 2 eexists.
  assert (B : bytes ex_tdt_time) by (vm_compute; repeat constructor). assert (B' : bytes [0; 0; 0; 0; 1; 0; 0; 0]) by (vm_compute; repeat constructor).
  split; [apply with_section_carries; [exact B|cbn; lia]|]. split; [split; [exact B|reflexivity]|].
  split; [apply hit_placed; [exact B|exact B'|reflexivity|cbn; lia]|]. split; [reflexivity|]. split; [reflexivity|].
  split; [exists [0; 0; 0; 0; 1; 0; 0; 0]; split; [exact B'|]; split; [reflexivity|]; split; [vm_compute; reflexivity|left; vm_compute; lia]|].
  split; [split; [reflexivity|vm_compute; repeat split; discriminate]|]. split; [|intros []; eexists; vm_compute; reflexivity].
  vm_compute. discriminate.
Qed.
Print Assumptions C71_tdt_refuted.
(** the second section is hit by an error over 32 bits, the third misses its end; the first and the last are read *)
Definition error_32 : list N := repeat 0 9 ++ [0x12; 0xFF; 0x34; 0x56] ++ repeat 0 11.
Definition noisy_day : list trip :=
  [mkTrip (split_13 5 pat_a) (mark true (split_13 5 pat_a)) pat_a;
   mkTrip (split_13 7 pat_b) (mark true (split_13 7 (xor_bytes pat_b error_32))) pat_b;
   mkTrip (split_13 9 pat_b) [(nth 0 (split_13 9 pat_b) no_payload, true); (nth 1 (split_13 9 pat_b) no_payload, false)] pat_b;
   mkTrip (alone 11 pat_b) (mark true (alone 11 pat_b)) pat_b].
Lemma split_placed cc s s' : cc < 16 -> length s' = length s -> bytes s' -> Forall2 in_place (split_13 cc s) (split_13 cc s').
Proof.
  intros C L B. constructor; [|constructor; [|constructor]].
  - cbv [in_place half k_pusi k_haspl k_cc k_payload]. do 3 (split; [reflexivity|]). cbn [k_af length]. rewrite !firstn_length, L. split; [reflexivity|]. split; [reflexivity|].
    apply Facts.bytes_cons. split; [lia|apply Facts.bytes_firstn; exact B].
  - cbv [in_place half k_pusi k_haspl k_cc k_payload]. do 3 (split; [reflexivity|]). cbn [k_af]. rewrite !skipn_length, L. split; [reflexivity|]. split; [reflexivity|].
    apply Facts.bytes_skipn; exact B.
Qed.
Example C71_ex : Forall (noisy 12) noisy_day /\ counted 4 (sent_packets (way noisy_day)) /\ gaps_show Nothing (way noisy_day) /\
  unharmed noisy_day = [pat_a; pat_b] /\
  (forall m, exists q t, receive m (pat_parse m) psi_default pat_default (map encode (arrived (way noisy_day))) = Ok (q, t) /\
     length (pat_items t) = 6%nat).
Proof.
  assert (Ba : bytes pat_a) by (vm_compute; repeat constructor). assert (Bb : bytes pat_b) by (vm_compute; repeat constructor).
  assert (Be : bytes error_32) by (vm_compute; repeat constructor).
  assert (Fa : framed pat_a) by (split; [exact Ba|reflexivity]). assert (Fb : framed pat_b) by (split; [exact Bb|reflexivity]).
  split; [|split; [|split; [|split]]].
  - constructor; [|constructor; [|constructor; [|constructor; [|constructor]]]].
    + split; [apply (split_carries 5 pat_a); [reflexivity|exact Ba|reflexivity]|]. split; [exact Fa|].
      split; [apply (split_placed 5 pat_a pat_a); [reflexivity|reflexivity|exact Ba]|]. split; [reflexivity|]. split; [reflexivity|]. left; reflexivity.
    + split; [apply (split_carries 7 pat_b); [reflexivity|exact Bb|reflexivity]|]. split; [exact Fb|].
      split; [apply (split_placed 7 pat_b (xor_bytes pat_b error_32)); [reflexivity|reflexivity|apply P_crc.xor_bytes_bytes; assumption]|].
      split; [reflexivity|]. split; [reflexivity|]. right. split; [|left; vm_compute; reflexivity].
      exists error_32. split; [exact Be|]. split; [reflexivity|]. split; [vm_compute; reflexivity|]. right. exists 32%nat. split; [lia|].
      exists 72%nat, (unpack [0x12; 0xFF; 0x34; 0x56]), 88%nat. split; [reflexivity|]. split; [cbn; lia|]. vm_compute. tauto.
    + split; [apply (split_carries 9 pat_b); [reflexivity|exact Bb|reflexivity]|]. split; [exact Fb|].
      split; [apply (split_placed 9 pat_b pat_b); [reflexivity|reflexivity|exact Bb]|]. split; [reflexivity|]. split; [reflexivity|]. left; reflexivity.
    + split; [apply (alone_carries 11 pat_b); [reflexivity|exact Bb|reflexivity]|]. split; [exact Fb|].
      split; [constructor; [do 5 (split; [reflexivity|]); apply Facts.bytes_cons; split; [lia|exact Bb]|constructor]|]. split; [reflexivity|]. split; [reflexivity|]. left; reflexivity.
  - cbn. repeat split.
  - cbn. repeat split; discriminate.
  - reflexivity.
  - intros []; eexists; eexists; (split; [vm_compute; reflexivity|reflexivity]).
Qed.
