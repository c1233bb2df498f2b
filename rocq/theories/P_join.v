(** Proofs: joining in the middle of a section. *)
From Verif Require Import Prelude Layout Facts Facts2 S_ts S_crc S_utils S_psi M_bytes M_ts M_crc M_utils M_psi M_drive M_recv M_desc S_desc
  M_tables S_tables P_bytes P_crc P_utils P_psi P_mux P_mux2 P_sect P_mux3 P_desc P_desc2 P_desc3 W_psi W_desc P_tab P_tab2 P_tab5 P_tab6 P_tab7 W_tables
  M_reader S_reader P_reader M_system S_system P_sys P_sys2 S_packed P_packed S_loss P_loss S_join.

Section Join.
Context {T : Type} (m : mode) (parse : T -> psi -> res T) (f : list N -> bool) (rd : list N -> T -> Prop) (add : T -> T -> T).
Context (X : readable parse f rd add).

Lemma parse_waiting t p d : bytes d -> holds p d -> (3 <= length d)%nat -> (length d < section_length d)%nat -> parse t p = Ok t.
Proof.
  intros B H L I. destruct X as (_ & _ & W). apply (W (d ++ repeat 0 (section_length d - length d))) with (d := d) (r := repeat 0 (section_length d - length d)); [|reflexivity| |exact H].
  - split; [apply bytes_app; split; [exact B|apply bytes_repeat; lia]|]. rewrite section_length_app by exact L. rewrite app_length, repeat_length. lia.
  - destruct (section_length d - length d)%nat eqn:E; [lia|discriminate].
Qed.
Lemma parse_whole t p d ts : bytes d -> holds p d -> (section_length d <= length d)%nat -> Forall2 rd (filter f [firstn (section_length d) d]) ts ->
  parse t p = Ok (fold_left add ts t).
Proof.
  intros B H L R. pose proof (section_length_ge d) as G. destruct H as [H _]. destruct H as [H1 H2]; [lia|]. set (s := firstn (section_length d) d) in *.
  assert (Ls : length s = section_length d) by (subst s; rewrite firstn_length; lia).
  assert (F : framed s).
  { split; [apply bytes_firstn; exact B|]. rewrite Ls. subst s. rewrite section_length_firstn by lia. reflexivity. }
  destruct p as [b z i c]. cbn [p_size p_buffer] in *. subst b z. rewrite <- Ls. destruct X as (X1 & X2 & _).
  pose proof (look_parse parse f rd add X1 X2 t s [] ts i c F ltac:(constructor) R) as E. rewrite app_nil_r in E. exact E.
Qed.
(** packets in step, behind [d] collected bytes *)
Lemma taken_run (s : list N) (us : list T) : Forall2 rd (filter f [s]) us -> forall l p d t, bytes d -> holds p d -> p_cc p < 16 -> counted (p_cc p) l ->
  Forall (fun k => packet_ok k /\ k_pusi k = false /\ (3 <= length (k_payload k))%nat) l ->
  s = firstn (section_length (d ++ concat (map k_payload l))) (d ++ concat (map k_payload l)) ->
  (d <> [] -> (3 <= length d)%nat) ->
  exists q, receive m parse p t (map encode l) =
    Ok (q, fold_left add (concat (repeat us (complete_in (section_length (d ++ concat (map k_payload l))) (length d) l))) t).
Proof.
  intros R. induction l as [|k l IH]; intros p d t Bd Hh Hc C O E D; [exists p; reflexivity|].
  destruct C as (C1 & C2 & C3). inversion O as [|? ? (O1 & O2 & O3) O']; subst x l0. cbn [map receive]. rewrite mux_encode by exact O1. rewrite C1, O2, C2.
  assert (Bk : bytes (k_payload k)) by apply O1.
  assert (L3 : (3 <= length (d ++ k_payload k))%nat) by (rewrite app_length; lia).
  destruct (mux_cont m p d (k_payload k) Bd Bk Hh Hc) as (p1 & -> & Hh1 & Hc1 & Hp1); [intros Z; rewrite Z in O3; cbn in O3; lia|exact L3|].
  cbn [bind]. cbn [map concat] in E |- *. rewrite app_assoc in E |- *. set (d1 := d ++ k_payload k) in *.
  assert (B1 : bytes d1) by (subst d1; apply bytes_app; auto).
  assert (SL : section_length (d1 ++ concat (map k_payload l)) = section_length d1) by (apply section_length_app; exact L3).
  assert (Hc1' : p_cc p1 < 16) by (rewrite Hc1; apply N.mod_lt; discriminate).
  cbn [complete_in]. rewrite <- (app_length d (k_payload k)). fold d1. rewrite SL.
  destruct (Nat.leb_spec (section_length d1) (length d1)) as [L|L].
  - rewrite (parse_whole t p1 d1 us B1 Hh1 L).
    + cbn [bind]. destruct (IH p1 d1 (fold_left add us t) B1 Hh1 Hc1') as [q Eq]; try assumption.
      { rewrite Hc1, <- C2. exact C3. } { intros _. exact L3. }
      exists q. rewrite Eq, SL. cbn [Nat.add repeat concat]. rewrite fold_left_app. reflexivity.
    + rewrite E, SL in R. replace (firstn (section_length d1) d1) with (firstn (section_length d1) (d1 ++ concat (map k_payload l))); [exact R|].
      rewrite firstn_app. replace (section_length d1 - length d1)%nat with 0%nat by lia. rewrite firstn_O, app_nil_r. reflexivity.
  - rewrite (parse_waiting t p1 d1 B1 Hh1 L3 L). cbn [bind]. destruct (IH p1 d1 t B1 Hh1 Hc1') as [q Eq]; try assumption.
    { rewrite Hc1, <- C2. exact C3. } { intros _. exact L3. }
    exists q. rewrite Eq, SL. reflexivity.
Qed.
Lemma framed_min : framed [0; 0; 0].
Proof. split; [repeat constructor|reflexivity]. Qed.
Lemma taken_at cc l : taken_up cc l = [] \/ exists k l', taken_up cc l = k :: l' /\ k_cc k = (cc + 1) mod 16.
Proof.
  induction l as [|k l IH]; [left; reflexivity|]. cbn [taken_up]. destruct (N.eqb_spec (k_cc k) ((cc + 1) mod 16)); [right; eauto|exact IH].
Qed.
Lemma join_run l : forall p t us cc0, p_buffer p = [] -> p_size p = 0%nat -> p_cc p < 16 -> counted cc0 l ->
  Forall (fun k => packet_ok k /\ k_pusi k = false /\ (3 <= length (k_payload k))%nat) l ->
  let g := taken_up (p_cc p) l in Forall2 rd (filter f [phantom g]) us ->
  exists q, receive m parse p t (map encode l) =
    Ok (q, fold_left add (concat (repeat us (complete_in (section_length (concat (map k_payload g))) 0 g))) t).
Proof.
  induction l as [|k l IH]; intros p t us cc0 Eb Es Hc C O g R; [exists p; reflexivity|].
  destruct C as (C1 & C2 & C3). inversion O as [|? ? (O1 & O2 & O3) O']; subst x l0. subst g. cbn [taken_up] in *.
  destruct (N.eqb_spec (k_cc k) ((p_cc p + 1) mod 16)) as [Ek|Nk].
  - destruct (taken_run (phantom (k :: l)) us R (k :: l) p [] t) as [q Eq]; try assumption.
    + constructor.
    + split; [cbn; lia|]. intros _. split; assumption.
    + split; [exact C1|]. split; [exact Ek|exact C3].
    + reflexivity.
    + congruence.
    + exists q. exact Eq.
  - cbn [map receive]. rewrite (mux_break m p k O1 C1 O2 Hc Nk). cbn [bind]. rewrite (parse_cleared parse f rd add X t p [0; 0; 0] framed_min). cbn [bind].
    destruct (IH (psi_clear p) t us (k_cc k) eq_refl eq_refl Hc C3 O' R) as [q Eq]. exists q. exact Eq.
Qed.
Lemma joined p l xs cc t us ts : p_buffer p = [] -> p_size p = 0%nat -> p_cc p < 16 -> rest_of_section l ->
  let g := taken_up (p_cc p) l in Forall2 rd (filter f [phantom g]) us ->
  transmitted xs -> counted cc (sent_packets (on_the_way xs)) -> gaps_show Nothing (on_the_way xs) -> Forall2 rd (filter f (intact xs)) ts ->
  exists q, receive m parse p t (map encode (l ++ arrived (on_the_way xs))) =
    Ok (q, fold_left add (concat (repeat us (complete_in (section_length (concat (map k_payload g))) 0 g)) ++ ts) t).
Proof.
  intros Eb Es Hc [O [cc0 C]] g R T1 C1 G1 R1. destruct (join_run l p t us cc0 Eb Es Hc C O R) as [q Eq]. fold g in Eq.
  rewrite map_app, receive_app, Eq. cbn [bind]. rewrite fold_left_app. exact (all_sections m parse f rd add X xs T1 Nothing cc q _ ts C1 G1 I R1).
Qed.
(** no packet has the expected counter *)
Lemma joined_clean p l xs cc t ts : p_buffer p = [] -> p_size p = 0%nat -> p_cc p < 16 -> rest_of_section l ->
  Forall (fun k => k_cc k <> (p_cc p + 1) mod 16) l ->
  transmitted xs -> counted cc (sent_packets (on_the_way xs)) -> gaps_show Nothing (on_the_way xs) -> Forall2 rd (filter f (intact xs)) ts ->
  exists q, receive m parse p t (map encode (l ++ arrived (on_the_way xs))) = Ok (q, fold_left add ts t).
Proof.
  intros Eb Es Hc [O [cc0 C]] N T1 C1 G1 R1. assert (E : exists q, receive m parse p t (map encode l) = Ok (q, t)).
  { clear R1 T1 C1 G1. revert p t cc0 Eb Es Hc C N. induction l as [|k l IH]; intros p t cc0 Eb Es Hc C N; [exists p; reflexivity|].
    destruct C as (C2 & C3 & C4). inversion O as [|? ? (O1 & O2 & O3) O']; subst. inversion N as [|? ? N1 N']; subst.
    cbn [map receive]. rewrite (mux_break m p k O1 C2 O2 Hc N1). cbn [bind]. rewrite (parse_cleared parse f rd add X t p [0; 0; 0] framed_min). cbn [bind].
    exact (IH O' (psi_clear p) t (k_cc k) eq_refl eq_refl Hc C4 N'). }
  destruct E as [q E]. rewrite map_app, receive_app, E. cbn [bind]. exact (all_sections m parse f rd add X xs T1 Nothing cc q _ ts C1 G1 I R1).
Qed.
End Join.
