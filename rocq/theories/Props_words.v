(** Property theorems C97: texts from the sender's user to the viewer. Drivers: M_words; what is to be seen: S_words. *)
From Verif Require Import Prelude Layout S_ts S_psi M_text S_text M_psi M_recv M_desc S_desc M_tables S_tables S_utils M_words S_words.
From Verif Require Import Props_tables Props_eit.
From Verif Require P_words P_words2 P_words3.

(** ** services: names in, names out *)
Theorem C97_services : forall m version tsid onid l pid cc dst, version < 2 ^ 5 -> tsid < 2 ^ 16 -> onid < 2 ^ 16 -> Forall service_ok l -> pid < 8192 -> cc < 16 ->
  exists t ss, sdt_made m version tsid onid l = Ok t /\ sends (sdt_demux m t pid cc dst) pid cc dst ss /\
    forall m' p, exists q u, receive m' (sdt_parse m') p sdt_default (stream pid cc ss) = Ok (q, u) /\ sdt_view u = Ok (map service_seen l).
Proof.
  intros m version tsid onid l pid cc dst Hv Ht Ho H Hp Hc. destruct (P_words3.each_made _ _ _ l (P_words3.service_made m) H) as (items & E & F).
  unfold sdt_made. rewrite E. cbn [bind]. eexists.
  destruct (C48_recovered m (P_words.bare_sdt (mkSdt 0x42 version tsid onid items)) pid cc dst) as (ss & S & R).
  - do 4 (split; [first [assumption|reflexivity]|]). cbn [P_words.bare_sdt sdt_items]. apply Forall_map. refine (P_words3.Forall2_right _ _ _ _ _ F). intros s i Q. apply Q.
  - unfold sdt_fits. cbn [P_words.bare_sdt sdt_items]. apply Forall_map. refine (P_words3.Forall2_right _ _ _ _ _ F). intros s i Q. apply Q.
  - cbn [P_words.bare_sdt sdt_items]. apply Forall_map. refine (P_words3.Forall2_right _ _ _ _ _ F). intros s i Q. apply Q.
  - left. reflexivity.
  - exact Hp.
  - exact Hc.
  - exists ss. split; [reflexivity|]. rewrite P_words.bare_sdt_out in S. split; [exact S|]. intros m' p. destruct (R m' p) as [q Q]. exists q. eexists. split; [exact Q|].
    unfold sdt_view. cbn [P_words.bare_sdt sdt_items]. apply P_words3.each_seen. clear - F. induction F as [|s i l items Q _ IH]; constructor; [|exact IH]. apply Q.
Qed.
Print Assumptions C97_services.

(** ** the guide of present and following events, and of a schedule *)
Theorem C97_now : forall m table version pnr tsid onid l pid cc dst, table = 0x4E \/ table = 0x4F -> version < 2 ^ 5 -> pnr < 2 ^ 16 -> tsid < 2 ^ 16 -> onid < 2 ^ 16 ->
  Forall event_ok l -> (0 < length l <= 256)%nat -> pid < 8192 -> cc < 16 ->
  exists t ss, eit_made m table version pnr tsid onid l = Ok t /\ sends (eit_demux m t pid cc dst) pid cc dst ss /\
    forall m' p, exists q u, receive m' (eit_parse m') p eit_default (stream pid cc ss) = Ok (q, u) /\ eit_view u = Ok (map event_seen l).
Proof.
  intros m table version pnr tsid onid l pid cc dst T Hv Hn Ht Ho H L Hp Hc. destruct (P_words3.each_made _ _ _ l (P_words3.event_made m) H) as (items & E & F).
  assert (Len : length items = length l) by (clear - F; induction F; cbn; congruence).
  unfold eit_made. rewrite E. cbn [bind]. eexists.
  destruct (C49_recovered m (P_words.bare_eit (mkEit table version pnr tsid onid items)) pid cc dst) as (ss & S & _ & R).
  - split; [cbn; destruct T as [-> | ->]; reflexivity|]. do 4 (split; [assumption|]). cbn [P_words.bare_eit eit_items]. apply Forall_map. refine (P_words3.Forall2_right _ _ _ _ _ F). intros s i Q. apply Q.
  - unfold eit_fits. cbn [P_words.bare_eit eit_items]. apply Forall_map. refine (P_words3.Forall2_right _ _ _ _ _ F). intros s i Q. apply Q.
  - exact T.
  - cbn [P_words.bare_eit eit_items]. rewrite map_length, Len. exact L.
  - cbn [P_words.bare_eit eit_items]. apply Forall_map. refine (P_words3.Forall2_right _ _ _ _ _ F). intros s i Q. apply Q.
  - exact Hp.
  - exact Hc.
  - exists ss. split; [reflexivity|]. rewrite P_words.bare_eit_out in S. split; [exact S|]. intros m' p. destruct (R m' p) as [q Q]. exists q. eexists. split; [exact Q|].
    unfold eit_view. cbn [P_words.bare_eit eit_items]. apply P_words3.each_seen. clear - F. induction F as [|s i l items Q _ IH]; constructor; [|exact IH]. apply Q.
Qed.
Print Assumptions C97_now.
Theorem C97_schedule : forall m table version pnr tsid onid l pid cc dst, 0x50 <= table <= 0x6F -> version < 2 ^ 5 -> pnr < 2 ^ 16 -> tsid < 2 ^ 16 -> onid < 2 ^ 16 ->
  Forall event_ok l -> (0 < length l < N.to_nat 504)%nat -> pid < 8192 -> cc < 16 ->
  exists t, eit_made m table version pnr tsid onid l = Ok t /\
    forall cc' out, eit_demux m t pid cc dst = Ok (cc', out) -> exists ps, out = dst ++ concat ps /\
      forall m' p, exists q u, receive m' (eit_parse m') p eit_default ps = Ok (q, u) /\ eit_view u = Ok (map event_seen l).
Proof.
  intros m table version pnr tsid onid l pid cc dst T Hv Hn Ht Ho H L Hp Hc. destruct (P_words3.each_made _ _ _ l (P_words3.event_made m) H) as (items & E & F).
  assert (Len : length items = length l) by (clear - F; induction F; cbn; congruence).
  unfold eit_made. rewrite E. cbn [bind]. eexists. split; [reflexivity|]. intros cc' out D. rewrite <- P_words.bare_eit_out in D.
  destruct items as [|first items]; [cbn in Len; lia|].
  destruct (C50_lossless m (P_words.bare_eit (mkEit table version pnr tsid onid (first :: items))) (P_words.bare_event first) (map P_words.bare_event items) pid cc dst cc' out) as (ps & S & R).
  - split.
    + split; [change (table < 256); lia|]. do 4 (split; [assumption|]). cbn [P_words.bare_eit eit_items]. apply Forall_map. refine (P_words3.Forall2_right _ _ _ _ _ F). intros s i Q. apply Q.
    + split; [reflexivity|]. split; [|exact T]. unfold eit_fits. cbn [P_words.bare_eit eit_items]. apply Forall_map. refine (P_words3.Forall2_right _ _ _ _ _ F). intros s i Q. apply Q.
  - exact Hp.
  - exact Hc.
  - cbn [P_words.bare_eit eit_items]. rewrite map_length, Len. apply L.
  - cbn [P_words.bare_eit eit_items]. apply Forall_map. refine (P_words3.Forall2_right _ _ _ _ _ F). intros s i Q. apply Q.
  - exact D.
  - exists ps. split; [exact S|]. intros m' p. destruct (R m' p eit_default) as (q & tb & _ & Q). exists q. eexists. split; [exact Q|].
    unfold eit_view, eit_add. cbn [P_words.bare_eit eit_items eit_default app]. apply P_words3.each_seen. clear - F. induction F as [|s i l its Q _ IH]; constructor; [|exact IH]. apply Q.
Qed.
Print Assumptions C97_schedule.

(** ** the name of a network *)
Theorem C97_network : forall m version network cp name items pid cc dst, version < 2 ^ 5 -> network < 2 ^ 16 -> label_ok cp name -> (wire_weight cp name <= 255)%nat ->
  Forall nit_item_ok items -> Forall (item_exact niti_descs) items -> Forall (fun i => (16 + length (nit_entry i) <= N.to_nat 4098)%nat) items -> pid < 8192 -> cc < 16 ->
  exists t ss, nit_made m version network cp name items = Ok t /\ sends (nit_demux m t pid cc dst) pid cc dst ss /\
    forall m' p, exists q u, receive m' (nit_parse m') p nit_default (stream pid cc ss) = Ok (q, u) /\ name_view (nit_descs u) = Ok (Some name) /\ nit_items u = items.
Proof.
  intros m version network cp name items pid cc dst Hv Hn [W S0] L H1 H2 H3 Hp Hc. destruct (P_words2.label m cp name W) as (t & E1 & E2 & _ & E3 & _ & E4 & E5).
  unfold nit_made. rewrite E1. cbn [bind]. eexists.
  assert (Wl : length (wire [D40 (P_words.bare t)]) = (2 + length (text t))%nat) by (unfold wire, loop_of; cbn [map flat_map fst snd body]; rewrite app_nil_r, P_words.bare_text; reflexivity).
  assert (WL : (length (wire [D40 (P_words.bare t)]) < N.to_nat 258)%nat) by lia.
  destruct (C47_recovered m (P_words.bare_nit (mkNit 0x40 version network [D40 t] items)) pid cc dst) as (ss & S & R).
  - do 3 (split; [first [assumption|reflexivity]|]). split; [|exact H1]. cbn [P_words.bare_nit nit_descs P_words.bares map P_words.bare_desc]. split; [|lia]. constructor; [|constructor].
    split; [apply P_words3.bare_ok; exact E2|]. split; [|exact I]. cbn [body]. rewrite P_words.bare_text. lia.
  - split; [|exact H3]. cbn [P_words.bare_nit nit_descs P_words.bares map P_words.bare_desc]. lia.
  - constructor; [|constructor]. exact (E4 S0).
  - exact H2.
  - left. reflexivity.
  - exact Hp.
  - exact Hc.
  - exists ss. split; [reflexivity|]. rewrite P_words.bare_nit_out in S. split; [exact S|]. intros m' p. destruct (R m' p) as [q Q]. exists q. eexists. split; [exact Q|].
    cbn [P_words.bare_nit nit_descs nit_items P_words.bares map P_words.bare_desc name_view]. rewrite P_words.bare_string, E3. split; reflexivity.
Qed.
Print Assumptions C97_network.

(** ** without the conditions on the characters it is false *)
(** what is seen of one event that is sent and received *)
Definition seen_of (e : event) : option (res (list (N * N * N * option (list N * list N * list N) * list N))) :=
  match eit_made Debug 0x4E 0 1 1 1 [e] with
  | Ok t => match round (eit_demux Debug t) (eit_parse Debug) eit_default 18 with Some (_, u) => Some (eit_view u) | None => None end
  | _ => None
  end.
Definition english : list N := [0x65; 0x6E; 0x67].
(** a title that starts with a line feed: the viewer takes the line feed for the number of a code page *)
Theorem C97_start_refuted : exists title, writable 0 title /\ seen_of (mkEv 1 0 0 0 english title [] []) = Some (Ok [(1, 0, 0, Some (english, [0xE1], []), [])]) /\ title = [0x0A; 0xC6].
Proof.
  exists [0x0A; 0xC6]. split; [left; eexists; split; [left; reflexivity|]|split; [vm_compute; reflexivity|reflexivity]].
  constructor; [left; lia|]. constructor; [|constructor]. right. exists 0xE1. split; [lia|vm_compute; reflexivity].
Qed.
Print Assumptions C97_start_refuted.
(** a long text with a line feed where it is cut *)
Theorem C97_control_refuted : exists s u, writable 0 s /\ (weight 0 s <= 300)%nat /\ seen_of (mkEv 1 0 0 0 english [] [] s) = Some (Ok [(1, 0, 0, Some (english, [], []), u)]) /\
  length s = 251%nat /\ length u = 250%nat.
Proof.
  exists (repeat 0x41 249 ++ [0x0A; 0xC6]), (repeat 0x41 249 ++ [0xE1]). split.
  - left. eexists. split; [left; reflexivity|]. apply Forall_app. split; [apply Forall_forall; intros c Hc; apply repeat_spec in Hc; subst c; left; lia|].
    constructor; [left; lia|]. constructor; [|constructor]. right. exists 0xE1. split; [lia|vm_compute; reflexivity].
  - split; [apply Nat.leb_le; vm_compute; reflexivity|]. split; [vm_compute; reflexivity|]. split; vm_compute; reflexivity.
Qed.
Print Assumptions C97_control_refuted.
(** a character above U+FFFF where the text is cut *)
Theorem C97_plane_refuted : exists s, writable 21 s /\ (weight 21 s <= 300)%nat /\
  seen_of (mkEv 1 0 0 21 english [] [] s) = Some (Ok [(1, 0, 0, Some (english, [], []), repeat 0x41 245 ++ [0xFFFD; 0xFFFD; 0xFFFD; 0xFFFD])]) /\ s = repeat 0x41 245 ++ [0x1F4FA].
Proof.
  exists (repeat 0x41 245 ++ [0x1F4FA]). split.
  - right. split; [reflexivity|]. apply Forall_app. split; [apply Forall_forall; intros c Hc; apply repeat_spec in Hc; subst c; left; lia|]. constructor; [right; lia|constructor].
  - split; [apply Nat.leb_le; vm_compute; reflexivity|]. split; [vm_compute; reflexivity|reflexivity].
Qed.
Print Assumptions C97_plane_refuted.

(** a service named in Cyrillic, an event with a title, no subtitle and a long text of two pieces *)
Definition hello : list N := [0x41F; 0x440; 0x438; 0x432; 0x435; 0x442; 0x21].
Definition ex_service : service := mkSv 5 1 5 [] hello.
Example C97_ex :
  match sdt_made Debug 3 7 8 [ex_service] with
  | Ok t => match round (sdt_demux Debug t) (sdt_parse Debug) sdt_default 17 with Some (n, u) => n = 1%nat /\ sdt_view u = Ok [(5, Some (1, [], hello))] | None => False end
  | _ => False
  end /\
  service_ok ex_service /\
  seen_of (mkEv 1 0 60 5 english hello [] (repeat 0x41 247 ++ hello)) = Some (Ok [(1, 0, 60, Some (english, hello, []), repeat 0x41 247 ++ hello)]).
Proof.
  split; [vm_compute; split; reflexivity|]. split; [|vm_compute; reflexivity].
  split; [reflexivity|]. split; [reflexivity|]. split; [|split].
  - split; [left; eexists; split; [right; right; right; right; right; left; reflexivity|constructor]|intros E; discriminate E].
  - split; [left; eexists; split; [right; right; right; right; right; left; reflexivity|]|intros E; discriminate E].
    repeat (apply Forall_cons || apply Forall_nil); try (left; reflexivity); right;
      [exists 0xbf|exists 0xe0|exists 0xd8|exists 0xd2|exists 0xd5|exists 0xe2]; split; try lia; vm_compute; reflexivity.
  - apply Nat.leb_le. vm_compute. reflexivity.
Qed.
