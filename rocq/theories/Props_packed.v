(** Property theorems C67: sections packed back to back on one PID. Specification: S_packed
    (begins, chain, runs), S_system (framed, carries, heard). *)
From Verif Require Import Prelude Layout S_ts S_crc S_utils S_psi M_text M_ts M_psi M_drive M_recv M_desc S_desc M_tables S_tables Props_tables
  S_system S_packed.
From Verif Require P_packed P_tab2.

(** * C67 *)
(** sections on their own and chains, in any order: of a chain as many sections as it has packets
    are read, the first ones, once and in order; whatever the receiver held before *)
Theorem C67_pat : forall m p old l sent seen ts, runs l sent seen -> Forall2 pat_reads (heard id_pat 12 seen) ts ->
  exists q, receive m (pat_parse m) p old (map encode l) = Ok (q, fold_left pat_add ts old).
Proof. intros m p old l sent seen ts H R. exact (P_packed.receive_runs m (pat_parse m) _ _ _ (P_packed.pat_readable m) l sent seen H p old ts R). Qed.
Print Assumptions C67_pat.
Theorem C67_pmt : forall m p old l sent seen ts, runs l sent seen -> Forall2 pmt_seen (heard id_pmt 16 seen) ts ->
  exists q, receive m (pmt_parse m) p old (map encode l) = Ok (q, fold_left pmt_add ts old).
Proof. intros m p old l sent seen ts H R. exact (P_packed.receive_runs m (pmt_parse m) _ _ _ (P_packed.pmt_readable m) l sent seen H p old ts R). Qed.
Print Assumptions C67_pmt.
Theorem C67_nit : forall m p old l sent seen ts, runs l sent seen -> Forall2 nit_reads (heard id_nit 16 seen) ts ->
  exists q, receive m (nit_parse m) p old (map encode l) = Ok (q, fold_left nit_add ts old).
Proof. intros m p old l sent seen ts H R. exact (P_packed.receive_runs m (nit_parse m) _ _ _ (P_packed.nit_readable m) l sent seen H p old ts R). Qed.
Print Assumptions C67_nit.
Theorem C67_sdt : forall m p old l sent seen ts, runs l sent seen -> Forall2 sdt_reads (heard id_sdt 15 seen) ts ->
  exists q, receive m (sdt_parse m) p old (map encode l) = Ok (q, fold_left sdt_add ts old).
Proof. intros m p old l sent seen ts H R. exact (P_packed.receive_runs m (sdt_parse m) _ _ _ (P_packed.sdt_readable m) l sent seen H p old ts R). Qed.
Print Assumptions C67_sdt.
Theorem C67_eit : forall m p old l sent seen ts, runs l sent seen -> Forall2 eit_reads (heard id_eit 18 seen) ts ->
  exists q, receive m (eit_parse m) p old (map encode l) = Ok (q, fold_left eit_add ts old).
Proof. intros m p old l sent seen ts H R. exact (P_packed.receive_runs m (eit_parse m) _ _ _ (P_packed.eit_readable m) l sent seen H p old ts R). Qed.
Print Assumptions C67_eit.
Theorem C67_tot : forall m p old l sent seen ts, runs l sent seen -> Forall2 tot_reads (heard id_tot 14 seen) ts ->
  exists q, receive m (tot_parse m) p old (map encode l) = Ok (q, fold_left tot_add ts old).
Proof. intros m p old l sent seen ts H R. exact (P_packed.receive_runs m (tot_parse m) _ _ _ (P_packed.tot_readable m) l sent seen H p old ts R). Qed.
Print Assumptions C67_tot.
(** so nothing is lost if every packet of every chain ends one section only *)
Theorem C67_one_each : forall cc carry ks ss left, chain cc carry ks ss left -> length ss = length ks -> firstn (length ks) ss = ss.
Proof. intros cc carry ks ss left _ E. rewrite <- E. apply firstn_all. Qed.
Print Assumptions C67_one_each.
(** the state behind a chain: the sections from the last one looked at on are in the buffer *)
Theorem C67_state : forall m p l cc carry ks ss left, begins l cc carry -> chain cc carry ks ss left -> ks <> [] ->
  exists q, mux_all m p (map encode (l ++ ks)) = Ok q /\ p_buffer q = concat (skipn (length ks - 1) ss) ++ left /\
    p_size q = length (hd [] (skipn (length ks - 1) ss)).
Proof. exact P_packed.chain_state. Qed.
Print Assumptions C67_state.
(** a start packet that holds a whole section and the beginning of the next one: the first is read
    twice and the next is lost *)
Theorem C67_twice : forall m p old k0 k1 s rest r rest1 u, framed s -> heard id_pat 12 [s] = [s] -> pat_reads s u ->
  packet_ok k0 -> k_haspl k0 = true -> k_pusi k0 = true -> k_payload k0 = 0 :: s ++ rest -> ends_section (k_cc k0) k1 r rest1 ->
  receive m (pat_parse m) p old (map encode [k0; k1]) = Ok (mkPsi (s ++ r ++ rest1) (length s) (p_pid p) (k_cc k1), pat_add (pat_add old u) u).
Proof.
  intros m p old k0 k1 s rest r rest1 u F H. apply (P_packed.twice m (pat_parse m) (P_sys.heard1 id_pat 12)); [apply P_packed.pat_readable|exact F|].
  unfold heard in H. cbn [filter] in H. unfold P_sys.heard1. destruct (_ && _)%bool; [reflexivity|discriminate].
Qed.
Print Assumptions C67_twice.
(** from then on sections are looked for in the wrong place: behind the next start packet, at the
    bytes [r] that ended the lost section *)
Theorem C67_out_of_step : forall m s r rest1 pid cc k r2 rest2, framed s -> bytes (r ++ rest1) -> r <> [] -> cc < 16 ->
  ends_section cc k r2 rest2 -> (3 <= length (r ++ rest1 ++ r2 ++ rest2))%nat ->
  psi_mux m (mkPsi (s ++ r ++ rest1) (length s) pid cc) (encode k) =
    Ok (mkPsi (r ++ rest1 ++ r2 ++ rest2) (section_length (r ++ rest1 ++ r2 ++ rest2)) pid (k_cc k)).
Proof. exact P_packed.out_of_step. Qed.
Print Assumptions C67_out_of_step.

(** ** witnesses *)
Definition program (n : N) : pat := mkPat 7 1 [mkPatI n (n + 1)].
Definition sec (n : N) : list N := pat_section (program n) [mkPatI n (n + 1)].
Definition part (pusi : bool) (cc : N) (pay : list N) : packet := mkPacket 0x47 0 pusi 0 20 0 true cc (Some (repeat 255 (183 - length pay))) pay.
Ltac packet := split; [vm_compute; reflexivity|split; [reflexivity|split; vm_compute; repeat constructor]].
Ltac ends := split; [packet|]; do 4 (split; [vm_compute; reflexivity|]); split; [discriminate|vm_compute; repeat constructor].
Ltac framing := split; vm_compute; [repeat constructor|reflexivity].
(** three programs, each section ends in the packet in which the next one starts *)
Definition chain_start : list packet := [part true 1 (0 :: firstn 9 (sec 100))].
Definition chain_packets : list packet :=
  [part true 2 (7 :: skipn 9 (sec 100) ++ firstn 4 (sec 200)); part true 3 (12 :: skipn 4 (sec 200) ++ firstn 11 (sec 300));
   part true 4 (5 :: skipn 11 (sec 300) ++ repeat 255 20)].
Lemma chain_ok : begins chain_start 1 (firstn 9 (sec 100)) /\ chain 1 (firstn 9 (sec 100)) chain_packets [sec 100; sec 200; sec 300] (repeat 255 20).
Proof.
  split.
  - exists (part true 1 (0 :: firstn 9 (sec 100))), [], (firstn 9 (sec 100)). split; [reflexivity|]. split; [packet|]. repeat split.
  - apply (chain_cons 1 _ _ _ (sec 100) (skipn 9 (sec 100)) [] (firstn 4 (sec 200)) [sec 200; sec 300]); [discriminate|framing|reflexivity|constructor|ends|].
    apply (chain_cons 2 _ _ _ (sec 200) (skipn 4 (sec 200)) [] (firstn 11 (sec 300)) [sec 300]); [discriminate|framing|reflexivity|constructor|ends|].
    apply (chain_cons 3 _ _ _ (sec 300) (skipn 11 (sec 300)) [] (repeat 255 20) []); [discriminate|framing|reflexivity|constructor|ends|constructor].
Qed.
Lemma three_heard : Forall2 pat_reads (heard id_pat 12 [sec 100; sec 200; sec 300]) [program 100; program 200; program 300].
Proof.
  assert (E : heard id_pat 12 [sec 100; sec 200; sec 300] = [sec 100; sec 200; sec 300]) by (vm_compute; reflexivity). rewrite E.
  constructor; [vm_compute; reflexivity|]. constructor; [vm_compute; reflexivity|]. constructor; [vm_compute; reflexivity|constructor].
Qed.
Example C67_ex : exists sent, runs (chain_start ++ chain_packets) sent sent /\ Forall2 pat_reads (heard id_pat 12 sent) [program 100; program 200; program 300] /\
  exists q, receive Debug (pat_parse Debug) psi_default pat_default (map encode (chain_start ++ chain_packets)) =
    Ok (q, mkPat 7 1 [mkPatI 100 101; mkPatI 200 201; mkPatI 300 301]).
Proof.
  exists [sec 100; sec 200; sec 300]. split; [|split].
  - destruct chain_ok as [B C]. pose proof (runs_chain _ _ _ _ _ _ [] [] [] B C ltac:(discriminate) runs_nil) as H. rewrite app_nil_r in H. exact H.
  - exact three_heard.
  - eexists. vm_compute. reflexivity.
Qed.
(** a packet that ends two sections: the second is lost when a new section starts *)
Theorem C67_all_seen_refuted : exists l sent seen, runs l sent seen /\ Forall2 pat_reads (heard id_pat 12 sent) [program 100; program 200; program 300] /\
  forall m, exists q, receive m (pat_parse m) psi_default pat_default (map encode l) = Ok (q, mkPat 7 1 [mkPatI 100 101; mkPatI 300 301]).
Proof.
  exists (chain_start ++ [part true 2 (7 :: skipn 9 (sec 100) ++ sec 200 ++ repeat 255 10)] ++ [part true 3 (0 :: sec 300)] ++ []),
    ([sec 100; sec 200] ++ [sec 300]), (firstn 1 [sec 100; sec 200] ++ [sec 300]). split; [|split].
  - apply (runs_chain chain_start 1 (firstn 9 (sec 100)) [part true 2 (7 :: skipn 9 (sec 100) ++ sec 200 ++ repeat 255 10)] [sec 100; sec 200] (repeat 255 10));
      [apply chain_ok| |discriminate|].
    + apply (chain_cons 1 _ _ _ (sec 100) (skipn 9 (sec 100)) [sec 200] (repeat 255 10) []); [discriminate|framing|reflexivity|repeat constructor|ends|constructor].
    + apply runs_alone; [|framing|constructor]. exists (part true 3 (0 :: sec 300)), [], (sec 300), []. split; [reflexivity|]. split; [packet|].
      do 3 (split; [reflexivity|]). split; [exact I|]. split; [exact I|]. split; [reflexivity|]. intros n H. inversion H.
  - exact three_heard.
  - intros []; eexists; vm_compute; reflexivity.
Qed.
Print Assumptions C67_all_seen_refuted.
(** three sections back to back, the first one whole in the packet in which it starts: it is read
    twice, the others never *)
Theorem C67_short_sections_refuted : exists k0 k1 k2, packet_ok k0 /\ k_payload k0 = 0 :: sec 100 ++ firstn 4 (sec 200) /\
  ends_section (k_cc k0) k1 (skipn 4 (sec 200)) (firstn 11 (sec 300)) /\ ends_section (k_cc k1) k2 (skipn 11 (sec 300)) (repeat 255 20) /\
  forall m, exists q, receive m (pat_parse m) psi_default pat_default (map encode [k0; k1; k2]) = Ok (q, mkPat 7 1 [mkPatI 100 101; mkPatI 100 101]).
Proof.
  exists (part true 1 (0 :: sec 100 ++ firstn 4 (sec 200))), (part true 2 (12 :: skipn 4 (sec 200) ++ firstn 11 (sec 300))),
    (part true 3 (5 :: skipn 11 (sec 300) ++ repeat 255 20)).
  split; [packet|]. split; [reflexivity|]. split; [ends|]. split; [ends|]. intros []; eexists; vm_compute; reflexivity.
Qed.
Print Assumptions C67_short_sections_refuted.
