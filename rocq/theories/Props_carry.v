(** C107: an elementary stream made with the setters. Specification: S_play, S_carry. *)
From Verif Require Import Prelude Layout S_ts M_ts M_pes M_reader M_play S_reader S_play M_count M_carry S_carry.
From Verif Require P_carry Props_reader Facts.

Definition no_errors (l : list event) : Prop := Forall (fun e => match e with Fail _ => False | Chunk _ => True end) l.
Definition is_packet (pk : list N) : Prop := length pk = 188%nat /\ hd 0 pk = 0x47.
Definition a_pcr (o : option N) : Prop := match o with Some v => v < 2 ^ 33 * 300 | None => True end.

(** PES packets of any bytes, each with or without a PCR: the packets made with the setters are exactly those of the tables, with counters that go on *)
Theorem C107_carry : forall m pid c (ps : list (option N * list N)), pid < 8192 -> c < 16 -> Forall (fun x => bytes (snd x)) ps ->
  exists ls, carry_all m pid c ps = Ok (concat (map (unit_packets pid) ls), (c + N.of_nat (length (concat ls))) mod 16) /\ Forall2 pieces_of ls (map snd ps) /\
    all_cut c (combine (map fst ps) ls) /\ map (@length piece) ls = map (fun x => packets_for (fst x) (length (snd x))) ps.
Proof. intros m pid c ps P C F. exact (P_carry.carry_all_ok m pid ps P c C F). Qed.
Print Assumptions C107_carry.
(** and no other way of cutting takes fewer packets *)
Theorem C107_fewest : forall pcr x l d, pieces_of (x :: l) d -> (length (e_data x) <= room pcr)%nat -> (packets_for pcr (length d) <= length (x :: l))%nat.
Proof. exact P_carry.fewest. Qed.
Print Assumptions C107_fewest.

(** what is sent this way is received: the player of C101 gives all PES packets, the player of C103 all but the last; also from the bytes read in portions of any sizes *)
Theorem C107_play : forall m m' pid c (ps : list (option N * (pes * bool))), pid < 8192 -> c < 16 ->
  Forall (fun x => pes_ok (fst (snd x)) /\ length_ok (fst (snd x)) (snd (snd x))) ps ->
  exists pks c', carry_all m pid c (map (fun x => (fst x, pes_bytes (fst (snd x)) (snd (snd x)))) ps) = Ok (pks, c') /\
    play m' pid pks = Ok (map (fun x => Some (holds (fst (snd x)))) ps) /\
    careful m' pid pks = Ok (map (fun x => Some (holds (fst (snd x)))) (removelast ps)) /\
    (forall n sched packet, no_errors sched -> (188 <= length packet)%nat -> (length pks <= n)%nat ->
      (' (got, _) <- read_all n (mkSource (concat pks) sched) packet ;; play m' pid got) = Ok (map (fun x => Some (holds (fst (snd x)))) ps)).
Proof.
  intros m m' pid c ps P C O. destruct (P_carry.play_carried m m' pid c ps P C O) as (pks & c' & E & H1 & H2 & H3).
  exists pks, c'. split; [exact E|]. split; [exact H1|]. split; [exact H2|]. intros n sched packet N B L.
  destruct (Props_reader.C57_aligned n [] pks [] sched packet ltac:(intros []) H3 ltac:(vm_compute; lia) N B) as (s & R & _).
  rewrite app_nil_r in R. cbn [app] in R. rewrite R. cbn [bind]. rewrite firstn_all2 by exact L. exact H1.
Qed.
Print Assumptions C107_play.

(** the PCRs are read from the packets they were put into, and from no others *)
Theorem C107_clock : forall m m' pid c ps pks c', pid < 8192 -> c < 16 -> Forall (fun x => bytes (snd x) /\ a_pcr (fst x)) ps ->
  carry_all m pid c ps = Ok (pks, c') ->
  map (clock_of m') pks = flat_map (fun x => Ok (fst x) :: repeat (Ok None) (packets_for (fst x) (length (snd x)) - 1)) ps.
Proof.
  intros m m' pid c ps pks c' P C F. apply P_carry.clock_carried; [exact P|exact C|]. eapply Forall_impl; [|exact F]. intros [[v|] d] (H1 & H2); (split; [exact H1|]); [|exact I].
  cbn [fst a_pcr] in *. change PCR_MAX with (2 ^ 33 * 300 - 1). lia.
Qed.
Print Assumptions C107_clock.

(** ** the values the setters do not take *)
(** a PID or a counter that is too large aborts with debug assertions *)
Theorem C107_range : forall pid c first pcr d, 8192 <= pid \/ 16 <= c -> carry_one Debug pid c first pcr d = Panic.
Proof. exact P_carry.one_range. Qed.
Print Assumptions C107_range.
(** without them a wrong PID marks the packet as an error (transport_error_indicator) *)
Theorem C107_range_refuted : exists pid ts, 8192 <= pid < 65536 /\ carry_one Release pid 0 true None [1; 2; 3] = Ok ts /\ is_error ts = Ok true.
Proof. exists 0x8100. eexists. split; [lia|]. split; [vm_compute; reflexivity|vm_compute; reflexivity]. Qed.
Print Assumptions C107_range_refuted.

(** two PES packets, the first with a PCR and 400 bytes of data, in four packets *)
Definition talk : list (option N * (pes * bool)) :=
  [(Some 2576980377599, (Timed 0xC0 5 (Some 8589934591) None 0 [] (repeat 7 400), false)); (None, (Timed 0xC0 5 (Some 3599) None 0 [] (repeat 8 170), false))].
Definition sent : list (option N * list N) := map (fun x => (fst x, pes_bytes (fst (snd x)) (snd (snd x)))) talk.
Example C107_ex : Forall (fun x => a_pcr (fst x)) talk /\
  (forall m, exists pks, carry_all m 0x100 14 sent = Ok (pks, 2) /\ length pks = 4%nat /\
    play m 0x100 pks = Ok [Some (Some 8589934591, None, repeat 7 400); Some (Some 3599, None, repeat 8 170)] /\
    map (clock_of m) pks = [Ok (Some 2576980377599); Ok None; Ok None; Ok None] /\
    map (fun pk => (get_cc pk, is_adaptation pk)) pks = [(Ok 14, Ok true); (Ok 15, Ok false); (Ok 0, Ok true); (Ok 1, Ok false)]).
Proof.
  split; [constructor; [reflexivity|constructor; [exact I|constructor]]|].
  intros m. eexists. split; [destruct m; vm_compute; reflexivity|]. split; [vm_compute; reflexivity|]. split; [destruct m; vm_compute; reflexivity|].
  split; [destruct m; vm_compute; reflexivity|vm_compute; reflexivity].
Qed.
