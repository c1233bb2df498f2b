(** C104: elementary streams found again in a damaged stream. Specification: S_damage, S_play, S_count, S_found. *)
From Verif Require Import Prelude Layout S_ts M_ts M_pes M_reader M_play S_reader S_play M_count S_count S_found S_lossy.
From Verif Require S_damage P_found P_reader Props_count Facts.

Definition no_errors (l : list event) : Prop := Forall (fun e => match e with Fail _ => False | _ => True end) l.

(** PES packets are sent on a PID, among packets of other PIDs and without payload; on the way bytes are lost, added or changed in any number of
    places. What a TsReader finds is given by C98; if what it wrongly takes for packets of the PID with payload is nothing, the packets found put marks
    on the pieces of the PES packets, and unless 16, 32, ... of these are lost in a row, the player gives exactly the PES packets that arrive
    whole and whose end shows *)
Theorem C104_found : forall pid c lead (us : list (list piece * (pes * bool))) l, pid < 8192 -> c < 16 -> Forall piece_ok lead ->
  Forall (fun x => pieces_of (fst x) (pes_bytes (fst (snd x)) (snd (snd x)))) us ->
  Forall (fun x => pes_ok (fst (snd x)) /\ length_ok (fst (snd x)) (snd (snd x))) us -> counted c (lead ++ concat (map fst us)) ->
  Forall S_damage.is_packet (S_damage.sent_packets l) -> Forall (fun x => bytes (S_damage.noise x)) l ->
  among pid (map (es_packet pid 0) lead ++ concat (map (unit_packets pid) (map fst us))) (S_damage.sent_packets l) ->
  exists ks fs out, S_damage.found true l ks fs out /\
    (Forall (fun x => mine pid x = false) fs -> exists lead' (us' : list (marked * (pes * bool))), map fst lead' = lead /\ map (fun x => (map fst (fst x), snd x)) us' = us /\
      as_packets pid (on_air lead' (map fst us')) = filter (fun x => mine pid (fst x)) (S_damage.marks l ks) /\
      (gaps_show None (on_air lead' (map fst us')) -> forall m n sched buf, no_errors sched -> (188 <= length buf)%nat -> (length out <= n)%nat ->
        (' (pks, _) <- read_all n (mkSource (S_damage.came l) sched) buf ;; careful m pid pks) = Ok (map (fun x => Some (holds (fst x))) (given us')))).
Proof. exact P_found.found_given. Qed.
Print Assumptions C104_found.

(** the condition on gaps holds when no 16 packets in a row are lost *)
Theorem C104_gaps : forall l, (forall a c, map snd l <> a ++ repeat false 16 ++ c) -> gaps_show None l.
Proof. exact P_found.few_lost. Qed.
Print Assumptions C104_gaps.

(** bytes that look like the missing packet become part of a PES packet that was not sent *)
Definition fake : list N := es_packet 0x100 0 (Props_count.simple 4 9).
Theorem C104_fake_refuted : exists us l out, Forall (fun u => u <> [] /\ Forall piece_ok u) us /\ counted 3 (concat us) /\
  S_damage.sent_packets l = concat (map (unit_packets 0x100) us) /\ Forall S_damage.is_packet (S_damage.sent_packets l) /\
  (forall m sched, no_errors sched -> (' (pks, _) <- read_all 9 (mkSource (S_damage.came l) sched) (repeat 0 188) ;; gather m 0x100 pks None None) = Ok [out]) /\
  ~ In out (map (fun u => concat (map e_data u)) us).
Proof.
  set (u := [Props_count.simple 3 0; Props_count.simple 4 1]). set (v := [Props_count.simple 5 2]).
  exists [u; v], [S_damage.mkPiece [] [] [es_packet 0x100 1 (Props_count.simple 3 0)];
    S_damage.mkPiece [es_packet 0x100 0 (Props_count.simple 4 1)] fake [es_packet 0x100 1 (Props_count.simple 5 2)]], (repeat 0 184 ++ repeat 9 184).
  split. { repeat (constructor; [split; [discriminate|repeat (constructor; [apply Props_count.simple_ok; reflexivity|]); constructor]|]). constructor. }
  split; [vm_compute; repeat split|]. split; [reflexivity|]. split; [repeat (constructor; [split; vm_compute; reflexivity|]); constructor|]. split.
  - intros m sched S.
    assert (A : in_stream (concat [es_packet 0x100 1 (Props_count.simple 3 0); fake; es_packet 0x100 1 (Props_count.simple 5 2)])
      [es_packet 0x100 1 (Props_count.simple 3 0); fake; es_packet 0x100 1 (Props_count.simple 5 2)]).
    { repeat (eapply in_next; [vm_compute; reflexivity|vm_compute; reflexivity|]). apply in_end. vm_compute. lia. }
    destruct (P_reader.read_all_spec _ _ (mkSource (S_damage.came
      [S_damage.mkPiece [] [] [es_packet 0x100 1 (Props_count.simple 3 0)];
       S_damage.mkPiece [es_packet 0x100 0 (Props_count.simple 4 1)] fake [es_packet 0x100 1 (Props_count.simple 5 2)]]) sched) (repeat 0 188) 9%nat A eq_refl S) as (s' & R & _); [rewrite repeat_length; lia|].
    rewrite R. cbn [bind firstn]. destruct m; vm_compute; reflexivity.
  - intros [H|[H|[]]]; revert H; vm_compute; discriminate.
Qed.
Print Assumptions C104_fake_refuted.

(** the stream of C103 joined in the middle, with two bytes too many at the start and nine bytes lost in the second PES packet *)
Definition pieces : list (list piece * (pes * bool)) := map (fun x => (map fst (fst x), snd x)) Props_count.heard.
Definition sent : list (list N) := map (es_packet 0x100 0) (map fst Props_count.lead) ++ concat (map (unit_packets 0x100) (map fst pieces)).
Definition harmed : list S_damage.piece :=
  [S_damage.mkPiece [] [1; 2] (firstn 5 sent); S_damage.mkPiece [nth 5 sent []] (skipn 9 (nth 5 sent [])) (skipn 6 sent)].
Example C104_ex : S_damage.sent_packets harmed = sent /\ counted 12 (map fst Props_count.lead ++ concat (map fst pieces)) /\
  Forall S_damage.is_packet sent /\ length (S_damage.came harmed) = (188 * 14 + 2 - 9)%nat /\
  forall m, (' (pks, _) <- read_all 20 (mkSource (S_damage.came harmed) [Chunk 100; Chunk 7]) (repeat 0 188) ;; careful m 0x100 pks) =
    Ok (map (fun d => Some (Some (90000 * d), None, repeat d 200)) [1; 3; 4; 5]).
Proof.
  split; [vm_compute; reflexivity|]. split; [vm_compute; repeat split|].
  split. { apply Forall_forall. intros x X. assert (E : forallb (fun x => ((length x =? 188)%nat && (hd 0 x =? 0x47))%bool) sent = true) by (vm_compute; reflexivity).
    apply (proj1 (forallb_forall _ _) E), andb_prop in X as [X Y]. split; [apply Nat.eqb_eq; exact X|apply N.eqb_eq; exact Y]. }
  split; [vm_compute; reflexivity|]. intros []; vm_compute; reflexivity.
Qed.
