(** C108: a program made, watched and timed with the library. Specification: S_play, S_carry, S_due, S_air. *)
From Verif Require Import Prelude Layout S_ts S_crc S_utils S_psi M_text M_ts M_psi M_drive M_recv M_desc S_desc M_tables S_tables Props_tables
  M_reader S_reader M_system S_system Props_system M_from M_tune M_move M_pes M_play S_play M_count S_count M_watch S_watch M_carry S_carry M_due S_due S_air.
From Verif Require S_found P_found P_watch P_air Props_reader Props_watch Props_carry Facts.

Definition no_errors (l : list event) : Prop := Forall (fun e => match e with Fail _ => False | Chunk _ => True end) l.
Definition is_packet (pk : list N) : Prop := length pk = 188%nat /\ hd 0 pk = 0x47.
(** a program: the PMT (one section) is sent by the library, any number of times, the PAT also, the first time in front of everything else *)
Definition announced (m : mode) (want q : N) (t : pmt) (l : list (list N)) : Prop :=
  pmt_sendable t /\ pmt_pnr t = want /\ (16 + length (flat_map pmt_entry (pmt_items t)) <= N.to_nat 1024)%nat /\ (forall s, In s (streams t) -> s < 8192) /\
  q < 8192 /\ q <> 0 /\ Forall (fun pk => length pk = 188%nat /\ bytes pk) l /\ (exists x b, l = x :: b /\ on 0 x = true) /\
  exists v tsid ts us, v < 32 /\ tsid < 65536 /\ Forall (eq (mkPat v tsid [mkPatI want q])) ts /\ Forall (eq t) us /\ us <> [] /\
    sent (pat_demux m) 0 ts (concat (filter (on 0) l)) /\ sent (pmt_demux m) q us (concat (filter (on q) l)).
(** on [pid] are the PES packets [ps], cut up by the sender of C107, among packets of other PIDs *)
Definition carried (m : mode) (pid : N) (ps : list (option N * (pes * bool))) (l : list (list N)) : Prop :=
  Forall (fun x => pes_ok (fst (snd x)) /\ length_ok (fst (snd x)) (snd (snd x))) ps /\
  exists c pks c', c < 16 /\ carry_all m pid c (map (fun x => (fst x, pes_bytes (fst (snd x)) (snd (snd x)))) ps) = Ok (pks, c') /\ among pid pks l.

Lemma choose {A B} (f : A -> N) (R : N -> B -> Prop) (b : B) (l : list A) : (forall i, In i l -> exists e, R (f i) e) -> exists g, forall i, In i l -> R (f i) (g (f i)).
Proof.
  induction l as [|a l IH]; intros H; [exists (fun _ => b); intros i []|]. destruct (H a (or_introl eq_refl)) as (e & E). destruct IH as (g & G); [intros i I; apply H; right; exact I|].
  exists (fun x => if x =? f a then e else g x). intros i [->|I]; [rewrite N.eqb_refl; exact E|]. destruct (N.eqb_spec (f i) (f a)) as [Q|Q]; [rewrite Q; exact E|exact (G i I)].
Qed.

(** the tables sent by the library and the streams of the PMT made with its setters, woven in any way: the viewer of the program gets of each
    stream, with its type, the time stamps and data of all PES packets but the last *)
Theorem C108_watch : forall m m' want q t (ps : N -> list (option N * (pes * bool))) l, announced m want q t l ->
  (forall i, In i (pmt_items t) -> carried m (pmti_pid i) (ps (pmti_pid i)) l) ->
  watch m' want l = Ok (map (fun i => (pmti_type i, map (fun x => Some (holds (fst (snd x)))) (removelast (ps (pmti_pid i))))) (pmt_items t)).
Proof.
  intros m m' want q t ps l A C.
  destruct (choose pmti_pid (fun pid e => on_pid pid e l /\ seen e = map (fun x => Some (holds (fst (snd x)))) (removelast (ps pid))) (mkEs 0 [] []) (pmt_items t)) as (es & E).
  { intros i I. destruct (C i I) as (O & c & pks & c' & CC & E & M).
    assert (P : pmti_pid i < 8192) by (destruct A as (_ & _ & _ & R & _); apply R; right; apply in_map; exact I).
    destruct (P_air.carried_es m (pmti_pid i) c (ps (pmti_pid i)) pks c' P CC O E) as (e & E1 & E2 & E3).
    exists e. split; [|exact E3]. split; [exact E1|]. rewrite E2. exact M. }
  rewrite (Props_watch.C105_watch m m' want q t es l A (fun i I => proj1 (E i I))). f_equal. apply map_ext_in. intros i I. rewrite (proj2 (E i I)). reflexivity.
Qed.
Print Assumptions C108_watch.

(** from the bytes, read in portions of any sizes *)
Theorem C108_stream : forall m m' want q t (ps : N -> list (option N * (pes * bool))) l n junk tail sched packet, announced m want q t l ->
  (forall i, In i (pmt_items t) -> carried m (pmti_pid i) (ps (pmti_pid i)) l) ->
  ~ In 0x47 junk -> Forall is_packet l -> (length (to_sync tail) < 188)%nat -> no_errors sched -> (188 <= length packet)%nat -> (length l <= n)%nat ->
  (' (pks, _) <- read_all n (mkSource (junk ++ concat l ++ tail) sched) packet ;; watch m' want pks) =
    Ok (map (fun i => (pmti_type i, map (fun x => Some (holds (fst (snd x)))) (removelast (ps (pmti_pid i))))) (pmt_items t)).
Proof.
  intros m m' want q t ps l n junk tail sched packet A C J K T N B H.
  destruct (Props_reader.C57_aligned n junk l tail sched packet J K T N B) as (s & R & _).
  rewrite R. cbn [bind]. rewrite firstn_all2 by exact H. exact (C108_watch m m' want q t ps l A C).
Qed.
Print Assumptions C108_stream.

(** PES packets for given times, some with a PCR: the player of C106 gets for each the time from the last PCR to its presentation *)
Theorem C108_due : forall m m' pid c ks, pid < 8192 -> c < 16 -> Forall spoken_ok ks -> Forall ahead (speech None ks) ->
  exists pks c', carry_all m pid c (map wire ks) = Ok (pks, c') /\ due m' pid pid None pks = Ok (map (fun w => ticks w / 90) (speech None ks)).
Proof. exact P_air.due_carried. Qed.
Print Assumptions C108_due.

(** ** examples *)
Definition pat_packet : list N := Props_watch.pat_packet.
Definition pmt_packet : list N := Props_watch.pmt_packet.
Definition clip (id n : N) : list (option N * (pes * bool)) :=
  map (fun d => (if d =? 1 then Some 81000000 else None, (Timed id 5 (Some (90000 * d)) None 0 [] (repeat d (N.to_nat n)), false))) [1; 2; 3].
Definition made (pid c : N) (ps : list (option N * (pes * bool))) : list (list N) :=
  match carry_all Debug pid c (map (fun x => (fst x, pes_bytes (fst (snd x)) (snd (snd x)))) ps) with Ok (l, _) => l | _ => [] end.
Definition film : list (list N) := made 0x100 15 (clip 0xE0 200).
Definition sound : list (list N) := made 0x102 3 (clip 0xC0 60).
Definition recording : list (list N) := pat_packet :: firstn 3 film ++ pmt_packet :: firstn 2 sound ++ skipn 3 film ++ skipn 2 sound.
Definition two : N -> list (option N * (pes * bool)) := fun pid => if pid =? 0x100 then clip 0xE0 200 else clip 0xC0 60.

Lemma clip_ok id n : (n = 200 /\ id = 0xE0) \/ (n = 60 /\ id = 0xC0) -> Forall (fun x => pes_ok (fst (snd x)) /\ length_ok (fst (snd x)) (snd (snd x))) (clip id n).
Proof.
  intros [(-> & ->)|(-> & ->)]; repeat (constructor; [split; [|right; vm_compute; reflexivity]; split; [vm_compute; reflexivity|]; split; [vm_compute; intuition discriminate|];
        split; [vm_compute; reflexivity|]; split; [exact I|]; split; [reflexivity|]; split; [apply Nat.leb_le; vm_compute; reflexivity|]; split; apply Facts.bytesb_iff; vm_compute; reflexivity|]); constructor.
Qed.
Example C108_ex : announced Debug 100 80 Props_watch.program recording /\
  (forall i, In i (pmt_items Props_watch.program) -> carried Debug (pmti_pid i) (two (pmti_pid i)) recording) /\
  (forall m, watch m 100 recording =
    Ok [(0x1B, [Some (Some 90000, None, repeat 1 200); Some (Some 180000, None, repeat 2 200)]); (0x03, [Some (Some 90000, None, repeat 1 60); Some (Some 180000, None, repeat 2 60)])]).
Proof.
  assert (B : forallb (fun x => ((length x =? 188)%nat && bytesb x)%bool) recording = true) by (vm_compute; reflexivity).
  assert (F : Forall (fun pk => length pk = 188%nat /\ bytes pk) recording).
  { apply Forall_forall. intros x X. apply (proj1 (forallb_forall _ _) B), andb_prop in X as [X Y]. split; [apply Nat.eqb_eq; exact X|apply Facts.bytesb_iff; exact Y]. }
  assert (A : forall pid, among pid (filter (S_found.mine pid) recording) recording).
  { intros pid. apply P_found.among_filter. eapply Forall_impl; [|exact F]. intros x (L & X). split; [lia|exact X]. }
  split.
  { destruct Props_watch.C105_ex as ((S1 & S2 & S3 & S4 & _) & _).
    split; [exact S1|]. split; [exact S2|]. split; [exact S3|]. split; [exact S4|]. split; [reflexivity|]. split; [discriminate|]. split; [exact F|].
    split; [exists pat_packet, (tl recording); split; [reflexivity|vm_compute; reflexivity]|].
    exists 1, 9, [mkPat 1 9 [mkPatI 100 80]], [Props_watch.program]. split; [reflexivity|]. split; [reflexivity|]. split; [repeat constructor|]. split; [repeat constructor|]. split; [discriminate|].
    assert (E0 : concat (filter (on 0) recording) = pat_packet ++ []) by (vm_compute; reflexivity).
    assert (E1 : concat (filter (on 80) recording) = pmt_packet ++ []) by (vm_compute; reflexivity). rewrite E0, E1.
    split; (eapply (sent_cons _ _ _ _ 0); [reflexivity|vm_compute; reflexivity|constructor]). }
  split.
  - intros i [<-|[<-|[]]].
    + split; [apply clip_ok; left; split; reflexivity|]. exists 15, film, 5. split; [reflexivity|]. split; [vm_compute; reflexivity|].
      assert (E : film = filter (S_found.mine 0x100) recording) by (vm_compute; reflexivity). rewrite E. apply A.
    + split; [apply clip_ok; right; split; reflexivity|]. exists 3, sound, 6. split; [reflexivity|]. split; [vm_compute; reflexivity|].
      assert (E : sound = filter (S_found.mine 0x102) recording) by (vm_compute; reflexivity). rewrite E. apply A.
  - intros []; vm_compute; reflexivity.
Qed.

(** three PES packets behind a PCR 5 ms in front of the turn of the clock, the second beside a new PCR *)
Definition told : list spoken :=
  [mkSpoken None 7 0xC0 5 None 0 [] [9] false; mkSpoken (Some (300 * (2 ^ 33 - 450))) (2 ^ 33 + 450) 0xC0 5 None 0 [] (repeat 1 300) false;
   mkSpoken (Some (300 * (2 ^ 33 + 90) + 7)) (2 ^ 33 + 900) 0xC0 5 (Some 3) 0 [] (repeat 2 160) false; mkSpoken None (2 ^ 33 + 1800) 0xC0 5 None 0 [] [3] true].
Example C108_ex_due : Forall spoken_ok told /\ Forall ahead (speech None told) /\
  speech None told = [(300 * (2 ^ 33 - 450), 2 ^ 33 + 450); (300 * (2 ^ 33 + 90) + 7, 2 ^ 33 + 900); (300 * (2 ^ 33 + 90) + 7, 2 ^ 33 + 1800)] /\
  forall m, (' (pks, _) <- carry_all m 0x100 9 (map wire told) ;; due m 0x100 0x100 None pks) = Ok [9; 9; 19].
Proof.
  split.
  { repeat (constructor; [split; [split; [vm_compute; reflexivity|]; split; [vm_compute; intuition discriminate|]; split; [vm_compute; reflexivity|]; split; [vm_compute; first [exact I|reflexivity]|];
      split; [discriminate|]; split; [apply Nat.leb_le; vm_compute; reflexivity|]; split; apply Facts.bytesb_iff; vm_compute; reflexivity|first [right; vm_compute; reflexivity|left; reflexivity]]|]). constructor. }
  split; [repeat (constructor; [split; vm_compute; [discriminate|reflexivity]|]); constructor|]. split; [vm_compute; reflexivity|]. intros []; vm_compute; reflexivity.
Qed.
