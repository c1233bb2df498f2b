(** Property theorems C100: what viewers see of a broadcast with loss and bit errors. Drivers: M_shows, M_words; what is to be seen: S_shows. *)
From Verif Require Import Prelude Layout S_ts S_utils S_psi M_ts M_text M_psi M_drive M_recv M_desc S_desc M_tables S_tables
  S_reader M_system S_system S_loss S_noise M_multi S_multi S_lossy S_hits M_words S_words M_shows S_shows Props_tables Props_system Props_hits.
From Verif Require P_shows P_hits2 Props_words Props_multi Props_lossy M_reader.

(** * C100 *)
(** a broadcast, and what comes of each of its packets *)
Definition aired (m : mode) (jobs : list (N * show)) (c : N -> N) (dst : list N) (c' : N -> N) (mk : list hit) : Prop :=
  shows_ok jobs /\ (forall p, c p < 16) /\ broadcast m jobs c dst = Ok (c', dst ++ concat (map fst mk)) /\ Forall (fun x => length (fst x) = 188%nat) mk /\ Forall same_pid mk.
Definition hits_on (pid : N) (mk : list hit) : list hit := filter (fun x => on pid (fst x)) mk.
(** the packets of a PID are those of its shows, in order *)
Definition by_show (m : mode) (jobs : list (N * show)) (c : N -> N) (pid : N) (mk : list hit) (xs : list (show * list hit)) : Prop :=
  map fst xs = shows_on pid jobs /\ concat (map snd xs) = hits_on pid mk /\ on_air m pid (c pid) xs.
(** the bit errors show in the CRC, the loss in the counter *)
Definition errors_show (pid : N) (mk : list hit) : Prop := Forall mild (runs (hits_on pid mk)) /\ shows Nothing (come_marks (hits_on pid mk)).
(** a viewer reads, from any bytes in which the reader finds these packets on this PID, the tables of a kind *)
Definition watches {T V} (parse : mode -> T -> psi -> res T) (view : T -> res V) (pid : N) (mk : list hit) (before after : V) : Prop :=
  forall m' data pks sched buf n p old, readable data pks sched buf n -> filter (on pid) pks = filter (on pid) (come mk) -> view old = Ok before ->
  exists s q u, follow n m' (parse m') pid (M_reader.mkSource data sched) buf p old = Ok (s, q, u) /\ M_reader.s_data s = [] /\ view u = Ok after.

(** the services of each show, of the sections that arrive whole and unharmed *)
Theorem C100_services : forall m jobs c dst c' mk pid, aired m jobs c dst c' mk -> pid < 8192 -> errors_show pid mk ->
  exists xs vs, by_show m jobs c pid mk xs /\ Forall2 (fun x v => part (services_of (fst x)) (good (snd x)) v) xs vs /\
    forall before, watches sdt_parse sdt_view pid mk before (before ++ concat vs).
Proof.
  intros m jobs c dst c' mk pid A Hp [M S]. destruct (P_shows.aired_journey m jobs c dst c' mk pid A Hp M) as (ys & xs & Y1 & Y2 & Y3 & Y4 & X1 & X2 & X3 & X4).
  destruct (C99_sdt m pid (c pid) xs Hp (proj1 (proj2 A) pid) X1 X2) as (ps & B & R); [rewrite X3; exact S|].
  destruct (P_shows.seen_all sdt_items P_shows.service_of sdt_add sdt_bit services_of (fun _ _ => eq_refl) P_shows.service_one ys xs ps Y4 B) as (vs & V1 & V2).
  exists ys, vs. split; [split; [exact Y1|split; [exact Y2|exact Y3]]|]. split; [exact V1|]. intros before m' data pks sched buf n p old Rd F E.
  destruct (R m' p old) as [q Q]. pose proof (C62_follow _ m' (sdt_parse m') pid data pks sched buf n p old Rd) as H. rewrite F, X4, Q in H. destruct H as (s & H1 & H2).
  exists s, q. eexists. split; [exact H1|]. split; [exact H2|]. exact (V2 old before E).
Qed.
Print Assumptions C100_services.
Theorem C100_events : forall m jobs c dst c' mk pid, aired m jobs c dst c' mk -> pid < 8192 -> errors_show pid mk ->
  exists xs vs, by_show m jobs c pid mk xs /\ Forall2 (fun x v => part (events_of (fst x)) (good (snd x)) v) xs vs /\
    forall before, watches eit_parse eit_view pid mk before (before ++ concat vs).
Proof.
  intros m jobs c dst c' mk pid A Hp [M S]. destruct (P_shows.aired_journey m jobs c dst c' mk pid A Hp M) as (ys & xs & Y1 & Y2 & Y3 & Y4 & X1 & X2 & X3 & X4).
  destruct (C99_eit m pid (c pid) xs Hp (proj1 (proj2 A) pid) X1 X2) as (ps & B & R); [rewrite X3; exact S|].
  destruct (P_shows.seen_all eit_items event_view eit_add eit_bit events_of (fun _ _ => eq_refl) P_shows.event_one ys xs ps Y4 B) as (vs & V1 & V2).
  exists ys, vs. split; [split; [exact Y1|split; [exact Y2|exact Y3]]|]. split; [exact V1|]. intros before m' data pks sched buf n p old Rd F E.
  destruct (R m' p old) as [q Q]. pose proof (C62_follow _ m' (eit_parse m') pid data pks sched buf n p old Rd) as H. rewrite F, X4, Q in H. destruct H as (s & H1 & H2).
  exists s, q. eexists. split; [exact H1|]. split; [exact H2|]. exact (V2 old before E).
Qed.
Print Assumptions C100_events.
(** the first name of which the section arrives *)
Theorem C100_network : forall m jobs c dst c' mk pid, aired m jobs c dst c' mk -> pid < 8192 -> errors_show pid mk ->
  exists xs, by_show m jobs c pid mk xs /\
    watches nit_parse (fun t => name_view (nit_descs t)) pid mk None (hd_error (somes (map (fun x => name_part (fst x) (good (snd x))) xs))) /\
    forall name, watches nit_parse (fun t => name_view (nit_descs t)) pid mk (Some name) (Some name).
Proof.
  intros m jobs c dst c' mk pid A Hp [M S]. destruct (P_shows.aired_journey m jobs c dst c' mk pid A Hp M) as (ys & xs & Y1 & Y2 & Y3 & Y4 & X1 & X2 & X3 & X4).
  destruct (C99_nit m pid (c pid) xs Hp (proj1 (proj2 A) pid) X1 X2) as (ps & B & R); [rewrite X3; exact S|].
  exists ys. split; [split; [exact Y1|split; [exact Y2|exact Y3]]|]. split; [|intros name]; intros m' data pks sched buf n p old Rd F E;
    (destruct (R m' p old) as [q Q]; pose proof (C62_follow _ m' (nit_parse m') pid data pks sched buf n p old Rd) as H; rewrite F, X4, Q in H; destruct H as (s & H1 & H2);
     exists s, q; eexists; split; [exact H1|]; split; [exact H2|]; exact (P_shows.names_all ys xs ps Y4 B old _ E)).
Qed.
Print Assumptions C100_network.
(** so nothing is seen that was not sent, and all when nothing is lost or hit *)
Theorem C100_part : forall A (items : list A) l seen, part items l seen -> incl seen items /\ (whole l -> seen = items) /\ (lost l -> seen = []).
Proof. exact @P_shows.part_all. Qed.
Print Assumptions C100_part.
(** such broadcasts are written; what comes of one can be read as it is *)
Theorem C100_done : forall m jobs c dst, shows_ok jobs -> (forall p, c p < 16) ->
  (m = Debug -> Forall (fun j => match snd j with Guide table _ _ _ _ _ => table < 0x50 | _ => True end) jobs) -> exists r, broadcast m jobs c dst = Ok r.
Proof. exact P_shows.aired_done. Qed.
Print Assumptions C100_done.
Theorem C100_stream : forall m jobs c dst c' mk, aired m jobs c dst c' mk -> in_stream (concat (come mk)) (come mk) /\ bytes (concat (come mk)).
Proof. exact P_shows.stream_of. Qed.
Print Assumptions C100_stream.

(** services on PID 17; on PID 18 a guide of two events and a PAT; of the guide one byte of the first title arrives wrong, the PAT is lost *)
Definition film : list N := [0x46; 0x69; 0x6C; 0x6D].
Definition news : list N := [0x4E; 0x65; 0x77; 0x73].
Definition ex_event (n : N) (title : list N) : event := mkEv n 1700006400 1800 0 Props_words.english title [] [].
Definition program : list (N * show) :=
  [(17, Services 3 7 8 [Props_words.ex_service]); (18, Guide 0x4E 1 5 7 8 [ex_event 1 film; ex_event 2 news]); (18, Other (TPat ex_pat))].
Definition on_the_wire : list (list N) := match broadcast Debug program (fun _ => 9) [] with Ok (_, out) => chop 188 out | _ => [] end.
Definition what_comes : list hit :=
  match on_the_wire with
  | [s; e1; e2; p] => [(s, Some s); (e1, Some (dent 40 0x66 e1)); (e2, Some e2); (p, None)]
  | _ => []
  end.
Example C100_ex : (exists c', aired Debug program (fun _ => 9) [] c' what_comes) /\ errors_show 18 what_comes /\ length what_comes = 4%nat /\
  map (fun x => map snd (good x)) [hits_on 17 what_comes; hits_on 18 what_comes] = [[true]; [false; true; false]] /\
  match receive Debug (eit_parse Debug) psi_default eit_default (filter (on 18) (come what_comes)) with Ok (_, u) => Some (eit_view u) | _ => None end = Some (Ok [event_seen (ex_event 2 news)]) /\
  match receive Debug (sdt_parse Debug) psi_default sdt_default (filter (on 17) (come what_comes)) with Ok (_, u) => Some (sdt_view u) | _ => None end = Some (Ok [(5, Some (1, [], Props_words.hello))]).
Proof.
  assert (Ev : forall n title, n < 2 ^ 16 -> title = film \/ title = news -> event_ok (ex_event n title)).
  { intros n title Hn Ht. assert (W : label_ok 0 title).
    { split; [left; eexists; split; [left; reflexivity|]|intros _ _]; destruct Ht as [-> | ->]; try (apply N.leb_le; reflexivity);
        (apply Forall_forall; intros x J; left; apply N.ltb_lt; revert x J; apply (proj1 (forallb_forall _ _)); vm_compute; reflexivity). }
    assert (E : label_ok 0 []) by (split; [left; eexists; split; [left; reflexivity|constructor]|intros _ Z; congruence]).
    split; [exact Hn|]. split; [reflexivity|]. split; [reflexivity|]. split; [reflexivity|]. split; [apply Forall_forall; intros x J; assert (K : (0x20 <=? x) && (x <? 0x80) = true) by (revert x J; apply (proj1 (forallb_forall _ _)); vm_compute; reflexivity); apply andb_true_iff in K as [K1 K2]; apply N.leb_le in K1; apply N.ltb_lt in K2; split; assumption|].
    split; [exact W|]. split; [exact E|]. split; [destruct Ht as [-> | ->]; apply Nat.leb_le; vm_compute; reflexivity|].
    split; [apply E|]. split; [intros _; constructor|]. split; [intros Z; discriminate Z|]. apply Nat.leb_le. vm_compute. reflexivity. }
  pose proof Props_words.C97_ex as X. apply proj2 in X. apply proj1 in X. rename X into Sv.
  split; [|split; [|split; [|split; [|split]]]].
  - eexists. split; [|split; [intros p; reflexivity|split; [vm_compute; reflexivity|split]]].
    + constructor; [|constructor; [|constructor; [|constructor]]]; (split; [reflexivity|]); cbn [snd show_ok].
      * do 3 (split; [reflexivity|]). constructor; [|constructor]. exact Sv.
      * do 4 (split; [reflexivity|]). split; [exact (Forall_cons _ (Ev 1 film eq_refl (or_introl eq_refl)) (Forall_cons _ (Ev 2 news eq_refl (or_intror eq_refl)) (Forall_nil _)))|]. left. split; [left; reflexivity|]. cbn [length]. lia.
      * split; [|exact I]. destruct Props_lossy.C96_ex as (G & _). unfold Props_lossy.sent_tables in G. cbn [goes_out] in G. apply G.
    + apply Forall_forall. intros x J. apply Nat.eqb_eq. revert x J. apply (proj1 (forallb_forall _ _)). vm_compute. reflexivity.
    + apply P_shows.same_checked. vm_compute. reflexivity.
  - split; [|vm_compute; exact I]. apply Forall_forall. intros g J. apply P_hits2.mild_checked. revert g J. apply (proj1 (forallb_forall _ _)). vm_compute. reflexivity.
  - vm_compute. reflexivity.
  - vm_compute. reflexivity.
  - vm_compute. reflexivity.
  - vm_compute. reflexivity.
Qed.
