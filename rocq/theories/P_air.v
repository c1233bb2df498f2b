(** Proofs for C108. *)
From Verif Require Import Prelude Layout Facts S_ts M_ts P_ts W_ts M_pes M_play S_play P_play M_count S_count P_count M_carry S_carry P_carry S_measure S_restamp M_due S_due P_due S_watch S_air.
From Verif Require P_found.

(** ** an elementary stream for the viewer *)
Lemma carried_es m pid c (ps : list (option N * (pes * bool))) pks c' : pid < 8192 -> c < 16 ->
  Forall (fun x => pes_ok (fst (snd x)) /\ length_ok (fst (snd x)) (snd (snd x))) ps ->
  carry_all m pid c (map (fun x => (fst x, pes_bytes (fst (snd x)) (snd (snd x)))) ps) = Ok (pks, c') ->
  exists e, es_ok e /\ arrived pid (es_pieces e) = pks /\ seen e = map (fun x => Some (holds (fst (snd x)))) (removelast ps).
Proof.
  intros P C O EQ. set (qs := map (fun x => (fst x, pes_bytes (fst (snd x)) (snd (snd x)))) ps) in *.
  destruct (carry_all_ok m pid qs P c C) as (ls & E & F & U & _).
  { unfold qs. apply Forall_map. eapply Forall_impl; [|exact O]. intros x (H1 & H2). apply pes_bytes_bytes. exact H1. }
  rewrite E in EQ. injection EQ as <- _. clear E.
  assert (FS : map snd qs = map (fun x => pes_bytes (fst (snd x)) (snd (snd x))) ps) by (unfold qs; rewrite map_map; reflexivity).
  assert (FF : map fst qs = map fst ps) by (unfold qs; rewrite map_map; reflexivity). rewrite FS in F. rewrite FF in U. clear FS FF qs.
  assert (LL : length ls = length ps) by (clear -F; revert ps F; induction ls as [|l ls IH]; intros [|p ps] F; inversion F; subst; [reflexivity|]; cbn [length]; f_equal; apply IH; assumption).
  assert (PO : Forall (fun l => l <> [] /\ Forall piece_ok l) ls).
  { clear -F. induction F as [|l q ls qs (H1 & H2 & _) F IH]; constructor; [split; assumption|exact IH]. }
  set (us := combine (map sure ls) (map snd ps)).
  assert (U1 : map fst us = map sure ls).
  { unfold us. clear -LL. revert ps LL. induction ls as [|l ls IH]; intros [|p ps] LL; try discriminate; [reflexivity|]. cbn [map combine fst]. f_equal. apply IH. injection LL as LL. exact LL. }
  exists (mkEs c [] us). unfold es_ok, es_pieces, seen. cbn [es_count es_lead es_units]. rewrite U1. split; [|split].
  - split; [exact C|]. split; [constructor|]. split; [|split; [|split]].
    + unfold us. clear -F LL. revert ps F LL. induction ls as [|l ls IH]; intros [|p ps] F LL; try discriminate; [constructor|]. cbn [map] in F. inversion F as [|? ? ? ? (H1 & H2 & H3) F']; subst. cbn [map combine].
      constructor; [|apply IH; [exact F'|injection LL as LL; exact LL]]. cbn [fst snd]. split; [destruct l; [congruence|discriminate]|]. split.
      * apply Forall_map. exact H2.
      * unfold data, sure. rewrite map_map. cbn [fst]. exact H3.
    + unfold us. clear -O. apply Forall_forall. intros [u a] X. apply in_combine_r in X. apply in_map_iff in X as (p & <- & X). cbn [snd]. exact (proj1 (Forall_forall _ _) O p X).
    + apply (step_all ls (map fst ps)); [rewrite map_length; exact LL|exact U|exact C].
    + apply gaps_true; [apply sure_all_true|left; reflexivity].
  - exact (sure_all_arrive pid ls).
  - rewrite given_whole.
    + unfold us. clear -LL. revert ls LL. induction ps as [|p ps IH]; intros [|l ls] LL; try discriminate; [reflexivity|]. injection LL as LL. specialize (IH ls LL).
      destruct ps as [|q ps], ls as [|k ls]; try discriminate LL; [reflexivity|]. cbn [map combine] in IH |- *.
      change (removelast ((sure l, snd p) :: (sure k, snd q) :: ?r)) with ((sure l, snd p) :: removelast ((sure k, snd q) :: r)).
      change (removelast (p :: q :: ps)) with (p :: removelast (q :: ps)). cbn [map snd]. f_equal. exact IH.
    + apply Forall_forall. intros [u a] X. apply in_combine_l in X. apply in_map_iff in X as (l & <- & X). cbn [fst].
      destruct (proj1 (Forall_forall _ _) PO l X) as (N0 & _). split; [destruct l; [congruence|discriminate]|].
      unfold whole. apply forallb_forall. intros y Y. apply in_map_iff in Y as (z & <- & _). reflexivity.
Qed.

(** ** times *)
Lemma own_fields pid u x : piece_ok x -> pid < 8192 -> u < 2 ->
  let p := es_packet pid u x in length p = 188%nat /\ bytes p /\ field p 11 13 = pid /\ flag p 9 = negb (u =? 0).
Proof.
  intros K P U p. destruct (sound pid u x K) as (L & _). fold p in L. pose proof (P_found.own_bytes pid u x K) as B. fold p in B.
  destruct (own_getters Debug pid u x K P U) as (G1 & _ & G3 & _). fold p in G1, G3.
  destruct (header_getters p ltac:(lia) B) as (_ & _ & H3 & H4 & _). rewrite G1 in H4. rewrite G3 in H3. injection H4 as H4. injection H3 as H3.
  split; [exact L|]. split; [exact B|]. split; congruence.
Qed.
Lemma own_clock m p v : length p = 188%nat -> bytes p -> clock_of m p = Ok v ->
  match v with Some t => has_pcr p = true /\ pcr_of p = t | None => has_pcr p = false end.
Proof.
  intros L B. unfold clock_of. rewrite is_pcr_spec by (assumption || lia). cbn [bind]. fold (has_pcr p). destruct (has_pcr p).
  - rewrite get_pcr_spec by (assumption || lia). cbn [bind]. fold (pcr_of p). intros H. injection H as <-. split; reflexivity.
  - intros H. injection H as <-. reflexivity.
Qed.
Definition moments_of (pid : N) (k : spoken) (l : list piece) : list moment :=
  match l with [] => [] | x :: r => (es_packet pid 1 x, k_pcr k, Some (k_pts k)) :: map (fun y => (es_packet pid 0 y, None, None)) r end.
Definition moment_ok (pid : N) (e : moment) : Prop := (length (fst (fst e)) = 188%nat /\ bytes (fst (fst e))) /\ tick_ok pid e /\ start_ok pid e.
Lemma later_ok pid l : pid < 8192 -> forall c, Forall piece_ok l -> cut_up None c l -> Forall (moment_ok pid) (map (fun y => (es_packet pid 0 y, None, None)) l).
Proof.
  intros P. induction l as [|x l IH]; intros c F U; [constructor|]. inversion F as [|? ? K F']; subst. constructor; [|exact (IH _ F' ltac:(apply U))].
  destruct (own_fields pid 0 x K P eq_refl) as (L & B & E1 & E2). split; [split; assumption|]. split.
  - right. cbn [fst snd]. apply (own_clock Debug _ None L B). rewrite (piece_eta None c x l U). destruct K as (_ & _ & BD). destruct U as (_ & _ & _ & U & _).
    apply (clock_piece Debug pid 0 c None); [exact BD|exact P|exact U|exact I].
  - right. right. exact E2.
Qed.
Lemma unit_ok pid k l c : pid < 8192 -> spoken_ok k -> pieces_of l (snd (wire k)) -> cut_up (fst (wire k)) c l -> Forall (moment_ok pid) (moments_of pid k l).
Proof.
  intros P (O1 & O2) PO U. pose proof PO as (N0 & F & E). destruct l as [|x l]; [congruence|]. inversion F as [|? ? K F']; subst.
  cbn [moments_of]. constructor; [|exact (later_ok pid l P _ F' ltac:(apply U))].
  destruct (own_fields pid 1 x K P eq_refl) as (L & B & E1 & E2). split; [split; assumption|].
  assert (CK : clock_of Debug (es_packet pid 1 x) = Ok (fst (wire k))).
  { rewrite (piece_eta _ c x l U). destruct K as (_ & _ & BD). destruct U as (_ & _ & _ & U & _). apply clock_piece; [exact BD|exact P|exact U|].
    cbn [wire fst]. destruct (k_pcr k) as [t|]; [|exact I]. change PCR_MAX with (PERIOD - 1). pose proof (N.mod_lt t PERIOD ltac:(discriminate)). lia. }
  apply (own_clock Debug _ _ L B) in CK. split.
  - unfold tick_ok. cbn [fst snd]. cbn [wire fst] in CK. destruct (k_pcr k) as [t|]; [split; [exact E1|exact CK]|right; exact CK].
  - unfold start_ok. cbn [fst snd]. exists x, l, (k_id k), (k_bits k), (k_dts k), (k_flags k), (k_rest k), (k_data k), (k_open k). cbv zeta. fold (pes_of k).
    split; [exact O1|]. split; [exact O2|]. split; [exact PO|]. split; [|reflexivity].
    assert (LB : (9 + length (stamps (Some (k_pts k mod 2 ^ 33)%N) (k_dts k)) <= length (pes_bytes (pes_of k) (k_open k)))%nat).
    { rewrite pes_bytes_len. unfold pes_of. cbn [pes_rest]. rewrite !app_length. rewrite P_desc.layout_length by reflexivity.
      match goal with |- context [(total_width ?fs / 8)%nat] => change (total_width fs / 8)%nat with 3%nat end. lia. }
    assert (ST : (length (stamps (Some (k_pts k mod 2 ^ 33)%N) (k_dts k)) <= 10)%nat).
    { unfold stamps. destruct (k_dts k); rewrite ?app_length, !pts_len; lia. }
    destruct U as (_ & _ & _ & _ & U & _). destruct l as [|y l].
    + cbn [map concat] in E. rewrite app_nil_r in E. cbn [wire snd] in E. rewrite E. exact LB.
    + rewrite U by discriminate. unfold room. destruct (fst (wire k)); lia.
Qed.
Lemma waits_later pid l : forall c r, waits c (map (fun y => (es_packet pid 0 y, None, None)) l ++ r) = waits c r.
Proof. induction l as [|x l IH]; intros c r; [reflexivity|]. cbn [map app waits]. destruct c; apply IH. Qed.
Lemma due_carried m m' pid c ks : pid < 8192 -> c < 16 -> Forall spoken_ok ks -> Forall ahead (speech None ks) ->
  exists pks c', carry_all m pid c (map wire ks) = Ok (pks, c') /\ due m' pid pid None pks = Ok (map (fun w => ticks w / 90) (speech None ks)).
Proof.
  intros P C O A. destruct (carry_all_ok m pid (map wire ks) P c C) as (ls & E & F & U & _).
  { apply Forall_map. eapply Forall_impl; [|exact O]. intros k (H & _). apply pes_bytes_bytes. exact H. }
  eexists _, _. split; [exact E|]. clear E. rewrite map_map in F, U.
  assert (X : exists l, map (fun e => fst (fst e)) l = concat (map (unit_packets pid) ls) /\ Forall (moment_ok pid) l /\ forall d, waits d l = speech d ks).
  { clear A. revert ls c C F U. induction O as [|k ks K O IH]; intros ls c C F U.
    - inversion F; subst. exists []. split; [reflexivity|]. split; [constructor|reflexivity].
    - cbn [map] in F. inversion F as [|l ? ls' ? PO F']; subst. cbn [map combine all_cut] in U. destruct U as (U1 & U2).
      destruct (IH ls' _ ltac:(apply N.mod_lt; discriminate) F' U2) as (r & R1 & R2 & R3).
      exists (moments_of pid k l ++ r). split; [|split].
      + rewrite map_app. cbn [map concat]. apply f_equal2; [|exact R1]. destruct l as [|x l]; [reflexivity|]. cbn [moments_of map fst unit_packets]. rewrite map_map. reflexivity.
      + apply Forall_app. split; [exact (unit_ok pid k l c P K PO U1)|exact R2].
      + intros d. destruct l as [|x l]; [destruct PO; congruence|]. cbn [moments_of app waits speech].
        destruct (k_pcr k) as [t|]; [rewrite waits_later, R3; reflexivity|]. destruct d as [d|]; rewrite waits_later, R3; reflexivity. }
  destruct X as (l & X1 & X2 & X3). rewrite <- X1, <- X3. rewrite <- X3 in A.
  exact (due_waits m' pid pid l P (Forall_impl _ (fun e (H : moment_ok pid e) => proj1 H) X2) (Forall_impl _ (fun e (H : moment_ok pid e) => proj1 (proj2 H)) X2)
    (Forall_impl _ (fun e (H : moment_ok pid e) => proj2 (proj2 H)) X2) None A).
Qed.
