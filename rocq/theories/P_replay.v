(** Proofs: elementary streams after remultiplexing. *)
From Verif Require Import Prelude Layout Facts Facts2 M_bytes M_ts M_pes M_psi S_ts S_psi P_bytes P_ts P_psi S_system
  M_remux S_remux P_remux S_measure M_restamp S_restamp P_restamp M_play.

(** what the player does with a packet that is sound *)
Lemma collect_sound m pid ts l cur : sound ts -> collect m pid (ts :: l) cur =
  if (field ts 11 13 =? pid) && flag ts 27 then
    d <- slice_from ts (N.to_nat (payload_at ts)) ;;
    if flag ts 9 then r <- collect m pid l (Some d) ;; Ok (match cur with Some c => c :: r | None => r end)
    else collect m pid l (match cur with Some c => Some (c ++ d) | None => None end)
  else collect m pid l cur.
Proof.
  intros S. destruct (sound_offset m ts S) as [E _]. destruct S as (L & B & _). cbn [collect].
  rewrite get_pid_spec by (assumption || lia). cbn [bind]. destruct (field ts 11 13 =? pid); [|reflexivity]. cbn [negb andb].
  rewrite is_payload_spec by (assumption || lia). cbn [bind]. destruct (flag ts 27); [|reflexivity]. cbn [negb].
  rewrite E. cbn [bind]. destruct (slice_from ts (N.to_nat (payload_at ts))) as [d| |]; [|reflexivity|reflexivity]. cbn [bind].
  rewrite is_pusi_spec by (assumption || lia). reflexivity.
Qed.
Lemma collect_on m pid l : Forall packet l -> forall cur, collect m pid (filter (on pid) l) cur = collect m pid l cur.
Proof.
  intros F. induction F as [|ts l [L B] F IH]; intros cur; [reflexivity|]. cbn [filter collect].
  change (on pid ts) with (field ts 11 13 =? pid). rewrite get_pid_spec by (assumption || lia). cbn [bind].
  destruct (field ts 11 13 =? pid) eqn:E; [|exact (IH cur)]. cbn [negb collect]. rewrite get_pid_spec by (assumption || lia). cbn [bind]. rewrite E. cbn [negb].
  destruct (is_payload ts) as [[]| |]; [|exact (IH cur)|reflexivity|reflexivity]. cbn [bind negb].
  destruct (get_payload_offset m ts) as [o| |]; [|reflexivity|reflexivity]. cbn [bind].
  destruct (slice_from ts (N.to_nat o)) as [d| |]; [|reflexivity|reflexivity]. cbn [bind].
  destruct (is_pusi ts) as [u| |]; [|reflexivity|reflexivity]. cbn [bind]. rewrite !IH. reflexivity.
Qed.
Lemma packets l : Forall sound l -> Forall packet l.
Proof. intros F. eapply Forall_impl; [|exact F]. intros x (L & B & _). exact (conj L B). Qed.
(** packets the player cannot tell apart *)
Definition alike (pid q : N) (a b : list N) : Prop := sound a /\ sound b /\ (field a 11 13 =? pid) = (field b 11 13 =? q) /\
  flag a 27 = flag b 27 /\ flag a 9 = flag b 9 /\ payload_at a = payload_at b /\ skipn (N.to_nat (payload_at a)) a = skipn (N.to_nat (payload_at a)) b.
Lemma collect_alike m pid q l l' : Forall2 (alike pid q) l l' -> forall cur, collect m pid l cur = collect m q l' cur.
Proof.
  intros F. induction F as [|a b l l' (Sa & Sb & E1 & E2 & E3 & E4 & E5) F IH]; intros cur; [reflexivity|].
  rewrite (collect_sound m pid a l cur Sa), (collect_sound m q b l' cur Sb), <- E1, <- E2, <- E3, <- E4.
  assert (E6 : slice_from a (N.to_nat (payload_at a)) = slice_from b (N.to_nat (payload_at a))).
  { unfold slice_from. destruct Sa as [-> _]. destruct Sb as [-> _]. rewrite E5. reflexivity. }
  rewrite E6. destruct ((field a 11 13 =? pid) && flag a 27); [|exact (IH cur)].
  destruct (slice_from b (N.to_nat (payload_at a))) as [d| |]; [|reflexivity|reflexivity]. cbn [bind]. rewrite !IH. reflexivity.
Qed.
Lemma play_on m pid l : Forall packet l -> play m pid (filter (on pid) l) = play m pid l.
Proof. intros F. unfold play. rewrite collect_on by exact F. reflexivity. Qed.
Lemma play_alike m pid q l l' : Forall2 (alike pid q) l l' -> play m pid l = play m q l'.
Proof. intros F. unfold play. rewrite (collect_alike m pid q l l' F). reflexivity. Qed.

(** ** another PID *)
Lemma alike_retag pid q l : q < 8192 -> Forall sound l -> Forall2 (alike pid q) (filter (on pid) l) (map (retag q) (filter (on pid) l)).
Proof.
  intros Q F. induction F as [|ts l S F IH]; [constructor|]. cbn [filter]. destruct (on pid ts) eqn:E; [|exact IH]. cbn [map]. constructor; [|exact IH].
  change (on pid ts) with (field ts 11 13 =? pid) in E. unfold alike.
  rewrite (retag_pid q ts Q), N.eqb_refl, retag_pl, retag_pusi, (retag_at q ts S), retag_skip by (destruct (sound_offset Debug ts S); destruct S; lia).
  split; [exact S|]. split; [apply retag_sound; exact S|]. split; [exact E|]. repeat split.
Qed.
Lemma routed_sound route l : Forall sound l -> Forall sound (routed route l).
Proof.
  intros F. induction F as [|ts l S F IH]; [constructor|]. unfold routed. cbn [flat_map]. destruct (route (field ts 11 13)) as [q|]; [|exact IH].
  constructor; [apply retag_sound; exact S|exact IH].
Qed.
Lemma route_play m m' route pid q l : Forall sound l -> (forall x y, route x = Some y -> y < 8192) -> route pid = Some q ->
  (forall x, route x = Some q -> x = pid) -> exists out, remap m route l = Ok out /\ play m' q out = play m' pid l.
Proof.
  intros F R E I. exists (routed route l). split; [exact (remap_spec m route l F R)|].
  rewrite <- (play_on m' q) by exact (packets _ (routed_sound route l F)). rewrite (routed_on route pid q l R E I), <- (play_on m' pid l (packets l F)).
  symmetry. apply play_alike, alike_retag; [exact (R _ _ E)|exact F].
Qed.

(** ** other counters *)
Lemma alike_recount pid l l' : Forall sound l -> Forall2 (fun a b => exists c, b = recount c a) l l' -> Forall2 (alike pid pid) l l'.
Proof.
  intros F R. induction R as [|a b l l' [c ->] R IH]; [constructor|]. inversion F as [|? ? S F']; subst. constructor; [|exact (IH F')]. unfold alike.
  rewrite recount_pid, recount_pl, recount_pusi, (recount_at c a S), recount_skip by (destruct (sound_offset Debug a S); destruct S; lia).
  split; [exact S|]. split; [apply recount_sound; exact S|]. repeat split.
Qed.
Lemma count_play m m' pid c l : Forall sound l -> c < 16 -> exists out, renumber m c l = Ok out /\ unbroken c out /\ play m' pid out = play m' pid l.
Proof.
  intros F C. exists (renumbered c l). split; [exact (renumber_spec m l F c C)|]. split; [apply renumbered_unbroken|].
  symmetry. apply play_alike, alike_recount; [exact F|apply renumbered_same].
Qed.

(** ** another clock *)
Lemma alike_later pid k l : Forall sound l -> Forall2 (alike pid pid) l (map (later k) l).
Proof.
  intros F. induction F as [|ts l S F IH]; [constructor|]. cbn [map]. constructor; [|exact IH]. pose proof S as (L & B & _). unfold alike.
  rewrite (later_at k ts (conj L B)), (later_payload k ts S). unfold flag. rewrite !(later_field k ts) by (first [exact (conj L B)|lia]).
  split; [exact S|]. split; [apply later_sound; exact S|]. repeat split.
Qed.
Lemma clock_play m m' pid k l : Forall sound l -> k < 2 ^ 63 -> exists out, restamp m k l = Ok out /\ play m' pid out = play m' pid l.
Proof.
  intros F K. exists (map (later k) l). split.
  - apply restamp_spec; [exact (packets l F)|exact K].
  - symmetry. apply play_alike, alike_later. exact F.
Qed.

(** ** a program moved to other PIDs *)
Lemma stream_play m pid q l l' : q < 8192 -> Forall sound l -> Forall packet l' -> filter (on q) l' = map (retag q) (filter (on pid) l) ->
  play m q l' = play m pid l.
Proof.
  intros Q F P E. rewrite <- (play_on m q l' P), E, <- (play_on m pid l (packets l F)). symmetry. apply play_alike, alike_retag; [exact Q|exact F].
Qed.
