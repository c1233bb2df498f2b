(** C103: elementary streams with lost packets. Specification: S_play, S_count. *)
From Verif Require Import Prelude Layout S_ts M_ts M_pes M_reader M_play S_reader S_play M_count S_count.
From Verif Require P_count Props_reader Facts.

Definition no_errors (l : list event) : Prop := Forall (fun e => match e with Fail _ => False | Chunk _ => True end) l.
Definition is_packet (pk : list N) : Prop := length pk = 188%nat /\ hd 0 pk = 0x47.
Definition pieces_ok (l : marked) : Prop := Forall (fun y => piece_ok (fst y)) l.

(** PES packets of any content, of which packets are lost in any places but never 16, 32, ... in a row between two that arrive; joined
    anywhere, among packets of other PIDs and without payload: a player that looks at the counters gives exactly the PES packets of which all
    packets arrive and behind which the start of the next one arrives *)
Theorem C103_gather : forall m pid c lead (us : list (marked * list N)) l, pid < 8192 -> c < 16 -> pieces_ok lead ->
  Forall (fun x => fst x <> [] /\ pieces_ok (fst x) /\ data (fst x) = snd x) us ->
  in_step c (on_air lead (map fst us)) -> gaps_show None (on_air lead (map fst us)) -> among pid (arrived pid (on_air lead (map fst us))) l ->
  gather m pid l None None = Ok (given us).
Proof. exact P_count.gather_given. Qed.
Print Assumptions C103_gather.

(** and of these the time stamps and the data *)
Theorem C103_careful : forall m pid c lead (us : list (marked * (pes * bool))) l, pid < 8192 -> c < 16 -> pieces_ok lead ->
  Forall (fun x => fst x <> [] /\ pieces_ok (fst x) /\ data (fst x) = pes_bytes (fst (snd x)) (snd (snd x))) us ->
  Forall (fun x => pes_ok (fst (snd x)) /\ length_ok (fst (snd x)) (snd (snd x))) us ->
  in_step c (on_air lead (map fst us)) -> gaps_show None (on_air lead (map fst us)) -> among pid (arrived pid (on_air lead (map fst us))) l ->
  careful m pid l = Ok (map (fun x => Some (holds (fst x))) (given us)).
Proof. exact P_count.careful_given. Qed.
Print Assumptions C103_careful.

(** from the bytes, read in portions of any sizes *)
Theorem C103_stream : forall m pid c lead (us : list (marked * (pes * bool))) l n junk tail sched packet, pid < 8192 -> c < 16 -> pieces_ok lead ->
  Forall (fun x => fst x <> [] /\ pieces_ok (fst x) /\ data (fst x) = pes_bytes (fst (snd x)) (snd (snd x))) us ->
  Forall (fun x => pes_ok (fst (snd x)) /\ length_ok (fst (snd x)) (snd (snd x))) us ->
  in_step c (on_air lead (map fst us)) -> gaps_show None (on_air lead (map fst us)) -> among pid (arrived pid (on_air lead (map fst us))) l ->
  ~ In 0x47 junk -> Forall is_packet l -> (length (to_sync tail) < 188)%nat -> no_errors sched -> (188 <= length packet)%nat -> (length l <= n)%nat ->
  (' (pks, _) <- read_all n (mkSource (junk ++ concat l ++ tail) sched) packet ;; careful m pid pks) = Ok (map (fun x => Some (holds (fst x))) (given us)).
Proof.
  intros m pid c lead us l n junk tail sched packet P C L F O I G A J K T N B H.
  destruct (Props_reader.C57_aligned n junk l tail sched packet J K T N B) as (s & R & _).
  rewrite R. cbn [bind]. rewrite firstn_all2 by exact H. exact (P_count.careful_given m pid c lead us l P C L F O I G A).
Qed.
Print Assumptions C103_stream.

(** nothing is given that was not sent, and everything but the last PES packet if nothing is lost *)
Theorem C103_given : forall A (us : list (marked * A)),
  (forall x, In x (given us) -> In x (map snd us)) /\
  (Forall (fun x => fst x <> [] /\ forallb snd (fst x) = true) us -> given us = map snd (removelast us)).
Proof. intros A us. split; [exact (P_count.given_in us)|exact (P_count.given_whole us)]. Qed.
Print Assumptions C103_given.

(** ** what happens otherwise *)
Definition simple (c v : N) : piece := mkPiece 0 c None (repeat v 184).
Lemma simple_ok c v : v < 256 -> piece_ok (simple c v).
Proof. intros V. split; [reflexivity|]. split; [constructor|]. apply Forall_forall. intros x X. apply repeat_spec in X. subst x. exact V. Qed.
Definition line (c : N) (n : nat) (come : N -> bool) : marked := map (fun i => (simple ((c + N.of_nat i) mod 16) (N.of_nat i), come (N.of_nat i))) (seq 0 n).
Lemma line_ok c n f : (n <= 256)%nat -> pieces_ok (line c n f).
Proof. intros L. apply Forall_map, Forall_forall. intros i X. apply in_seq in X. apply simple_ok. lia. Qed.
(** 16 packets lost in a row do not show: a PES packet is given that was not sent *)
Theorem C103_sixteen_refuted : exists us out, let l := arrived 0x100 (on_air [] us) in
  Forall (fun u => u <> [] /\ pieces_ok u) us /\ in_step 3 (on_air [] us) /\
  (forall m, gather m 0x100 l None None = Ok [out]) /\ ~ In out (map data us).
Proof.
  exists [line 3 18 (fun i => (i =? 0) || (i =? 17)); line 5 1 (fun _ => true)], (repeat 0 184 ++ repeat 17 184). cbv zeta.
  split. { constructor; [|constructor; [|constructor]]; (split; [discriminate|apply line_ok; lia]). }
  split; [vm_compute; repeat split|]. split; [intros []; vm_compute; reflexivity|].
  intros [H|[H|[]]]; apply (f_equal (@length N)) in H; revert H; vm_compute; discriminate.
Qed.
Print Assumptions C103_sixteen_refuted.
(** and the player of C101, which does not look at the counters, gives one when a single packet is lost *)
Theorem C103_plain_refuted : exists us out, let l := arrived 0x100 (on_air [] us) in
  Forall (fun u => u <> [] /\ pieces_ok u) us /\ in_step 3 (on_air [] us) /\ gaps_show None (on_air [] us) /\
  (forall m, exists r, collect m 0x100 l None = Ok (out :: r)) /\ ~ In out (map data us) /\
  (forall m, gather m 0x100 l None None = Ok [data (line 6 2 (fun _ => true))]).
Proof.
  exists [line 3 3 (fun i => negb (i =? 1)); line 6 2 (fun _ => true); line 8 1 (fun _ => true)], (repeat 0 184 ++ repeat 2 184). cbv zeta.
  split. { constructor; [|constructor; [|constructor; [|constructor]]]; (split; [discriminate|apply line_ok; lia]). }
  split; [vm_compute; repeat split|].
  split. { cbv [on_air later_pieces map concat unit_pieces line seq app gaps_show fst snd]. vm_compute. intuition discriminate. }
  split; [intros []; eexists; vm_compute; reflexivity|].
  split; [|intros []; vm_compute; reflexivity].
  intros [H|[H|[H|[]]]]; revert H; vm_compute; discriminate.
Qed.
Print Assumptions C103_plain_refuted.

(** joined in the middle of a PES packet; of the second PES packet the end is lost and of the fifth the start, so that the end of the fourth does not show *)
Definition sound_unit (c : N) (marks : bool * bool) (d : N) : marked * (pes * bool) :=
  let p := Timed 0xC0 5 (Some (90000 * d)) None 0 [] (repeat d 200) in let w := pes_bytes p false in
  ([(mkPiece 0 c None (firstn 184 w), fst marks); (mkPiece 0 ((c + 1) mod 16) (Some (0 :: repeat 0xFF 152)) (skipn 184 w), snd marks)], (p, false)).
Definition heard : list (marked * (pes * bool)) :=
  [sound_unit 14 (true, true) 1; sound_unit 0 (true, false) 2; sound_unit 2 (true, true) 3; sound_unit 4 (true, true) 4; sound_unit 6 (false, true) 5; sound_unit 8 (true, true) 6].
Definition lead : marked := [(simple 12 7, true); (simple 13 7, false)].
Definition other : list N := ts_header 0x47 0 1 0 0x11 0 0 1 5 ++ repeat 0 184.
Definition okb (y : piece * bool) : bool :=
  ((length (af_bytes (e_af (fst y))) + length (e_data (fst y)) =? 184)%nat && bytesb (match e_af (fst y) with Some b => b | None => [] end) && bytesb (e_data (fst y)))%bool.
Lemma okb_ok l : forallb okb l = true -> pieces_ok l.
Proof.
  intros H. apply Forall_forall. intros y Y. apply (proj1 (forallb_forall _ _) H) in Y. apply andb_prop in Y as [Y Y3]. apply andb_prop in Y as [Y1 Y2].
  split; [apply Nat.eqb_eq; exact Y1|]. split; apply Facts.bytesb_iff; assumption.
Qed.
Example C103_ex : pieces_ok lead /\
  Forall (fun x => fst x <> [] /\ pieces_ok (fst x) /\ data (fst x) = pes_bytes (fst (snd x)) (snd (snd x))) heard /\
  Forall (fun x => pes_ok (fst (snd x)) /\ length_ok (fst (snd x)) (snd (snd x))) heard /\
  in_step 12 (on_air lead (map fst heard)) /\ gaps_show None (on_air lead (map fst heard)) /\
  map (fun x => holds (fst x)) (given heard) = [(Some 90000, None, repeat 1 200); (Some 270000, None, repeat 3 200)] /\
  (forall m, careful m 0x100 (other :: arrived 0x100 (on_air lead (map fst heard)) ++ [other]) = Ok [Some (Some 90000, None, repeat 1 200); Some (Some 270000, None, repeat 3 200)]).
Proof.
  split; [apply okb_ok; vm_compute; reflexivity|]. split.
  { repeat (constructor; [split; [discriminate|split; [apply okb_ok; vm_compute; reflexivity|vm_compute; reflexivity]]|]). constructor. }
  split.
  { repeat (constructor; [split; [|right; vm_compute; reflexivity]; split; [vm_compute; reflexivity|]; split; [vm_compute; intuition discriminate|];
      split; [vm_compute; reflexivity|]; split; [exact I|]; split; [reflexivity|]; split; [apply Nat.leb_le; vm_compute; reflexivity|]; split; apply Facts.bytesb_iff; vm_compute; reflexivity|]). constructor. }
  split; [vm_compute; repeat split|]. split; [vm_compute; intuition discriminate|]. split; [vm_compute; reflexivity|]. intros []; vm_compute; reflexivity.
Qed.
