(** Proofs: bit errors. *)
From Verif Require Import Prelude Layout Facts Facts2 S_ts S_crc S_utils S_psi M_ts M_psi M_recv P_ts P_crc P_psi P_mux P_mux2 P_sys P_sys2 S_system S_loss P_packed P_loss S_noise.

Lemma in_place_ok k k' : in_place k k' -> packet_ok k -> packet_ok k'.
Proof.
  intros (H1 & H2 & H3 & H4 & H5 & H6) (P1 & P2 & P3 & P4). split; [|split; [congruence|split; [exact H6|rewrite H4; exact P4]]].
  unfold encode in *. rewrite !app_length, ts_header_length in *. rewrite H4, H5. exact P1.
Qed.
Lemma in_place_filter l l' : Forall2 in_place l l' -> Forall2 in_place (filter k_haspl l) (filter k_haspl l').
Proof.
  induction 1 as [|k k' l l' H _ IH]; [constructor|]. cbn [filter]. pose proof H as (_ & H2 & _). rewrite H2.
  destruct (k_haspl k); [constructor; [exact H|exact IH]|exact IH].
Qed.
Lemma in_place_carried l l' : Forall2 in_place l l' -> length (carried l') = length (carried l) /\ bytes (carried l').
Proof.
  intros H. apply in_place_filter in H. unfold carried. induction H as [|k k' a a' H _ IH]; [split; constructor|]. cbn [map concat].
  destruct H as (_ & _ & _ & _ & H5 & H6). rewrite !app_length, H5. split; [lia|]. apply bytes_app. tauto.
Qed.
Lemma in_place_firstn n : forall l l', Forall2 in_place l l' -> Forall2 in_place (firstn n l) (firstn n l').
Proof. induction n as [|n IH]; intros l l' H; [constructor|]. destruct H; [constructor|]. cbn [firstn]. constructor; [assumption|]. apply IH. assumption. Qed.
Lemma in_place_continues l l' : Forall2 in_place l l' -> forall cc, continues cc l -> continues cc l'.
Proof.
  induction 1 as [|k k' l l' H _ IH]; intros cc C; [exact I|]. cbn [continues] in *. destruct C as [P C]. split; [exact (in_place_ok k k' H P)|].
  destruct H as (H1 & H2 & H3 & H4 & H5 & H6). rewrite H2, H3. destruct (k_haspl k); [|apply IH; exact C]. destruct C as (C1 & C2 & C3 & C4).
  split; [congruence|]. split; [|split; [exact C3|apply IH; exact C4]]. intros E. apply C2. rewrite E in H5. destruct (k_payload k); [reflexivity|discriminate].
Qed.
Lemma carries_in_place l l' s : carries l s -> Forall2 in_place l l' -> hd 0 (carried l') = 0 -> carries l' (firstn (length s) (tl (carried l'))).
Proof.
  intros (k & ks & c & st & -> & Hk & Hpl & Hpu & Hpay & Hc & H3 & Hall & Hinc) H Hd. inversion H as [|? k' ? ks' H1 H2]; subst.
  pose proof (in_place_carried _ _ H2) as [Lc _]. pose proof (in_place_ok _ _ H1 Hk) as Hk'. pose proof H1 as (I1 & I2 & I3 & I4 & I5 & I6).
  rewrite Hpay in I5. destruct (k_payload k') as [|z c'] eqn:Ep; [discriminate|]. cbn [length] in I5.
  assert (Ec : carried (k' :: ks') = z :: c' ++ carried ks').
  { unfold carried. cbn [filter]. rewrite I2, Hpl. cbn [map concat]. rewrite Ep. reflexivity. }
  rewrite Ec in Hd |- *. cbn [hd tl] in Hd |- *. subst z.
  assert (Ls : length (c' ++ carried ks') = (length s + length st)%nat).
  { apply (f_equal (@length N)) in Hall. rewrite !app_length in *. lia. }
  exists k', ks', c', (skipn (length s) (c' ++ carried ks')). split; [reflexivity|]. split; [exact Hk'|]. split; [congruence|]. split; [congruence|].
  split; [exact Ep|]. split; [rewrite I3; exact (in_place_continues _ _ H2 _ Hc)|].
  split. { apply in_place_filter in H2. inversion H2 as [|a a' r r' F1 F2 F3 F4]; [exact I|]. rewrite <- F3 in H3. destruct F1 as (_ & _ & _ & _ & F5 & _). rewrite F5. lia. }
  split; [symmetry; apply firstn_skipn|]. intros n Hn. rewrite firstn_length, Ls.
  assert (Ln : length ks' = length ks) by (clear - H2; induction H2; cbn [length]; congruence).
  specialize (Hinc n ltac:(lia)). pose proof (in_place_carried _ _ (in_place_firstn n _ _ H2)) as [Lf _]. rewrite app_length in *. lia.
Qed.

Lemma framed_short s : framed s -> (length s <= N.to_nat 4098)%nat.
Proof. intros [_ E]. rewrite E. unfold section_length. pose proof (field_lt s 12 12) as H. change (2 ^ N.of_nat 12) with 4096 in H. lia. Qed.

Section Noise.
Context {T : Type} (m : mode) (parse : T -> psi -> res T) (ids : N -> bool) (min : nat) (rd : list N -> T -> Prop) (add : T -> T -> T).
Let f s := (min <=? length s)%nat && ids (field s 0 8) && (crc_spec s =? 0).
Context (X : readable parse f rd add).

Lemma seen_framed x : noisy min x -> carries (sent_packets (t_got x)) (t_seen x) /\ framed (t_seen x) /\ length (t_seen x) = length (t_section x).
Proof.
  intros (Ca & F & Pl & Hd & Len & _). pose proof (carries_in_place _ _ _ Ca Pl Hd) as C. fold (t_seen x) in C. split; [exact C|].
  assert (B : bytes (carried (sent_packets (t_got x)))) by exact (proj2 (in_place_carried _ _ Pl)).
  assert (L : length (t_seen x) = length (t_section x)).
  { destruct C as (k & ks & c & st & E & _ & Hpl & _ & Hpay & _). unfold t_seen. rewrite firstn_length. apply Nat.min_l.
    destruct (in_place_carried _ _ Pl) as [Lc _]. destruct Ca as (k0 & ks0 & c0 & st0 & E0 & _ & Hpl0 & _ & Hpay0 & _ & _ & Hall0 & _).
    assert (Lt : length (carried (t_sent x)) = S (length (t_section x) + length st0)).
    { rewrite E0. unfold carried. cbn [filter]. rewrite Hpl0. cbn [map concat]. rewrite Hpay0. cbn [app length]. f_equal.
      rewrite <- app_length, <- Hall0. reflexivity. }
    destruct (carried (sent_packets (t_got x))) eqn:Ec; cbn [length tl] in *; lia. }
  split; [|exact L]. split; [|rewrite L, Len; apply F].
  unfold t_seen. apply bytes_firstn. destruct (carried _); [exact B|]. cbn [tl]. apply bytes_cons in B. apply B.
Qed.
Lemma harmed_deaf x : noisy min x -> t_seen x <> t_section x -> f (t_seen x) = false.
Proof.
  intros H D. destruct (seen_framed x H) as (_ & F & L). destruct H as (_ & [Fb Fl] & _ & _ & _ & [E|[(e & Be & Le & Ee & He) Hc]]); [contradiction|].
  unfold f. rewrite L. destruct Hc as [Hc|Hc].
  - assert (N0 : crc_run 0 (unpack e) <> 0).
    { destruct He as [He|(w & Hw & He)]; [apply weight_run; [rewrite Le; apply framed_short; split; assumption|exact He]|apply (burst_run e w); assumption]. }
    assert (Nz : crc_spec (t_seen x) <> 0) by (rewrite Ee; apply crc_error_detected; [congruence|exact Hc|exact N0]).
    apply N.eqb_neq in Nz. rewrite Nz. apply andb_false_r.
  - destruct (Nat.leb_spec min (length (t_section x))); [lia|reflexivity].
Qed.
Lemma through_noise p old cc xs ts : Forall (noisy min) xs -> counted cc (sent_packets (way xs)) -> gaps_show Nothing (way xs) ->
  Forall2 rd (filter f (unharmed xs)) ts ->
  exists q, receive m parse p old (map encode (arrived (way xs))) = Ok (q, fold_left add ts old).
Proof.
  intros H C G R. set (xs' := map (fun x => (t_got x, t_seen x)) xs).
  assert (Ew : on_the_way xs' = way xs) by (unfold on_the_way, way, xs'; rewrite map_map; reflexivity).
  assert (Ei : filter f (intact xs') = filter f (unharmed xs)).
  { unfold intact, unharmed, xs'. clear C G R Ew xs'. induction H as [|x xs Hx _ IH]; [reflexivity|]. cbn [map filter fst snd].
    destruct (forallb snd (t_got x)); cbn [andb]; [|exact IH]. destruct (list_eq_dec N.eq_dec (t_seen x) (t_section x)) as [E|E]; cbn [map filter snd].
    - rewrite E. destruct (f (t_section x)); [f_equal|]; exact IH.
    - rewrite (harmed_deaf x Hx E). exact IH. }
  rewrite <- Ew in *. rewrite <- Ei in R. apply (all_sections m parse f rd add X xs') with (y := Nothing) (cc := cc); [|exact C|exact G|exact I|exact R].
  unfold transmitted, xs'. apply Forall_map. eapply Forall_impl; [|exact H]. intros x Hx. cbn [fst snd]. destruct (seen_framed x Hx) as (A & B & _). split; assumption.
Qed.
End Noise.

(** the error indicator is not looked at *)
Definition alike (a b : list N) : Prop :=
  length a = 188%nat /\ length b = 188%nat /\ bytes a /\ bytes b /\
  flag a 9 = flag b 9 /\ flag a 26 = flag b 26 /\ flag a 27 = flag b 27 /\ field a 28 4 = field b 28 4 /\ skipn 4 a = skipn 4 b.
Lemma alike_mux m p a b : alike a b -> (flag a 26 = true -> field a 32 8 < 251) -> psi_mux m p a = psi_mux m p b.
Proof.
  intros (L & L' & B & B' & E1 & E2 & E3 & E4 & E) H.
  assert (E5 : field a 32 8 = field b 32 8).
  { rewrite <- (firstn_skipn 4 a), <- (firstn_skipn 4 b), E. change 32%nat with (8 * 4 + 0)%nat.
    rewrite (field_app_n 4 (firstn 4 a)), (field_app_n 4 (firstn 4 b)) by (rewrite firstn_length; lia). reflexivity. }
  assert (S4 : forall n, (4 <= n)%nat -> skipn n a = skipn n b).
  { intros n Hn. replace n with ((n - 4) + 4)%nat by lia. rewrite <- !skipn_skipn, E. reflexivity. }
  rewrite !psi_mux_eq by assumption. rewrite <- E3, <- E1, <- E4. destruct (flag a 27); [|reflexivity].
  rewrite !payload_offset_spec by (assumption || lia). rewrite <- E2, <- E5. destruct (flag a 26); cbn [bind].
  - specialize (H eq_refl). destruct (N.leb_spec (field a 32 8) 250); [|lia]. cbn [bind]. rewrite S4 by lia. reflexivity.
  - rewrite S4 by (cbn; lia). reflexivity.
Qed.
Lemma alike_receive {T} m (parse : T -> psi -> res T) l l' : Forall2 (fun a b => alike a b /\ (flag a 26 = true -> field a 32 8 < 251)) l l' ->
  forall p t, receive m parse p t l = receive m parse p t l'.
Proof.
  induction 1 as [|a b l l' [H1 H2] _ IH]; intros p t; [reflexivity|]. cbn [receive]. rewrite (alike_mux m p a b H1 H2).
  destruct (psi_mux m p b); [|reflexivity|reflexivity]. cbn [bind]. destruct (parse t a0); [|reflexivity|reflexivity]. cbn [bind]. apply IH.
Qed.
