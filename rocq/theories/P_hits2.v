(** Proofs: tables of which packets are lost and hit, continued. *)
From Coq Require Import ZifyBool.
From Verif Require Import Prelude Layout Facts Facts2 S_ts S_crc S_utils S_psi M_ts M_psi M_drive M_recv M_desc S_desc M_tables S_tables
  M_reader S_reader M_system S_system P_ts W_ts P_psi P_mux P_mux2 P_sys2 P_eit P_eit2 P_eit3 P_eit5 P_reader P_sys P_tab P_tab2 P_tab3 P_tab4 P_tab5 P_tot P_sect P_mux3 P_desc W_tables W_eit W_sys
  S_loss P_packed P_loss S_noise P_noise M_multi S_multi P_multi S_lossy P_lossy S_hits P_hits.
From Verif Require P_tell.

(** ** the sections of all tables *)
Definition each_run (xs : journey) : list (list hit) := concat (map (fun x => runs (snd x)) xs).
Definition matches (g : list hit) (y : marked * list N) : Prop :=
  good_marks g = enc (fst y) /\ carries (sent_packets (fst y)) (snd y) /\ framed (snd y) /\ crc_short (snd y) /\ Forall (fun k => k_af k = None) (sent_packets (fst y)).
Lemma way_of (xs : list (marked * list N)) (P : packet -> Prop) : Forall P (sent_packets (on_the_way xs)) -> Forall (fun x => Forall P (sent_packets (fst x))) xs.
Proof.
  induction xs as [|x xs IH]; intros H; [constructor|]. unfold on_the_way in H. cbn [map concat] in H. rewrite sent_app in H. apply Forall_app in H as [H1 H2]. constructor; auto.
Qed.
Lemma matches_all gs ys : Forall2 (fun g y => good_marks g = enc (fst y)) gs ys -> transmitted ys -> Forall crc_short (map snd ys) -> Forall (fun k => k_af k = None) (sent_packets (on_the_way ys)) ->
  Forall2 matches gs ys.
Proof.
  intros H T C A. apply way_of in A. unfold transmitted in T. induction H as [|g y gs ys E _ IH]; [constructor|]. inversion T as [|? ? [T1 T2] T3]; subst. inversion C; subst. inversion A; subst.
  constructor; [|apply IH; assumption]. unfold matches. auto.
Qed.
Lemma deliver_hits {T} (add : T -> T -> T) f rd bit m pid : (forall a b c, add (add a b) c = add a (add b c)) -> gets add f rd bit -> pid < 8192 -> forall xs cc, cc < 16 ->
  goes_out m pid cc (marks_of come_marks xs) ->
  exists ys, Forall2 matches (each_run xs) ys /\ counted ((cc + 15) mod 16) (sent_packets (on_the_way ys)) /\
    exists us ps, Forall2 rd (filter f (intact ys)) us /\ Forall2 (fun x o => bit (fst x) (good (snd x)) o) xs ps /\ forall old, fold_left add us old = fold_left add (somes ps) old.
Proof.
  intros A G Hp. induction xs as [|[t l] xs IH]; intros cc Hc O.
  - exists []. split; [constructor|]. split; [exact I|]. exists [], []. split; [constructor|]. split; [constructor|reflexivity].
  - cbn [marks_of map fst snd goes_out] in O. destruct O as (S & L & cc' & D & O). rewrite come_marks_fst in D. destruct (send_sections m t pid cc _ S Hp Hc D) as (ss & La & E). injection E as -> E.
    rewrite E in D. symmetry in E. apply same_packets in E; [|apply La|exact Hc|rewrite <- come_marks_fst; apply Forall_map; exact L].
    pose proof (made_crc m t pid cc ss S Hp Hc (proj1 La) D) as Cs.
    destruct (table_hits pid ss cc l (proj1 La) Hp Hc (eq_sym E)) as (x1 & T1 & M1 & E1 & C1 & L1 & R1 & A1).
    destruct (G m t pid cc ss S Hp Hc La D x1 _ T1 M1 C1) as (u1 & U1 & B1).
    destruct (IH _ (next_lt pid cc ss) O) as (x2 & M2 & C2 & u2 & ps & R2 & B2 & Q2).
    exists (x1 ++ x2). split; [|split].
    + unfold each_run. cbn [map concat snd]. apply Forall2_app; [|exact M2]. apply matches_all; [assumption|assumption|rewrite M1; exact Cs|assumption].
    + rewrite way_app, sent_app. apply counted_app. split; [exact C1|]. rewrite L1. exact C2.
    + exists (u1 ++ u2), (merge add u1 :: ps). split; [rewrite intact_app, filter_app; apply Forall2_app; assumption|]. split.
      * constructor; [cbn [fst snd]; rewrite <- E1; exact B1|exact B2].
      * intros old. rewrite somes_cons, !fold_left_app, Q2, <- (merge_fold add A). reflexivity.
Qed.

(** ** a section on its way *)
Definition now (h : hit) : list N := match snd h with Some y => y | None => fst h end.
Definition with_payload (k : packet) (b : list N) : packet := mkPacket (k_sync k) (k_tei k) (k_pusi k) (k_prio k) (k_pid k) (k_tsc k) (k_haspl k) (k_cc k) (k_af k) b.
Fixpoint swap (ks : list packet) (g : list hit) : marked :=
  match ks, g with k :: ks', h :: g' => (with_payload k (skipn 4 (now h)), some_way h) :: swap ks' g' | _, _ => [] end.
Definition trip_of (g : list hit) (y : marked * list N) : trip := mkTrip (sent_packets (fst y)) (swap (sent_packets (fst y)) g) (snd y).
(** a packet of the sender *)
Definition plain (k : packet) : Prop := packet_ok k /\ k_haspl k = true /\ k_af k = None.
Lemma plain_payload k : plain k -> k_payload k = skipn 4 (encode k) /\ length (k_payload k) = 184%nat.
Proof.
  intros ((L & _) & _ & A). unfold encode in *. rewrite A in *. cbn [af_bytes app] in *. rewrite app_length, ts_header_length in L. split; [|lia].
  rewrite skipn_app, skipn_all2 by (rewrite ts_header_length; lia). rewrite ts_header_length. reflexivity.
Qed.
Lemma encode_bytes k : packet_ok k -> bytes (encode k).
Proof. intros (_ & _ & B & A). unfold encode. apply bytes_app. split; [apply layout_bytes|]. apply bytes_app. auto. Qed.
Lemma now_mild k h : plain k -> encode k = fst h -> mild_packet h -> length (now h) = 188%nat /\ bytes (skipn 4 (now h)).
Proof.
  intros P E M. unfold mild_packet, now in *. destruct (snd h).
  - destruct M as (L & B & _). split; [exact L|]. apply bytes_skipn. exact B.
  - pose proof (plain_payload k P) as [Pk _]. rewrite <- E. split; [apply P|]. rewrite <- Pk. apply P.
Qed.
Lemma swap_facts ks : forall g, Forall plain ks -> map fst g = map encode ks -> Forall mild_packet g ->
  Forall2 in_place ks (sent_packets (swap ks g)) /\ carried (sent_packets (swap ks g)) = body (instead g) /\ carried ks = body (sent g) /\
  map snd (swap ks g) = map some_way g /\ Forall2 (fun a b => alike a b /\ (flag a 26 = true -> field a 32 8 < 251)) (come g) (map encode (arrived (swap ks g))).
Proof.
  induction ks as [|k ks IH]; intros [|h g] P E M; try discriminate.
  - do 4 (split; [constructor|]). constructor.
  - cbn [map] in E. injection E as Eh Eg. inversion P as [|? ? Pk P']; subst. inversion M as [|? ? Mh M']; subst. destruct (IH g P' Eg M') as (I1 & I2 & I3 & I4 & I5).
    symmetry in Eh. pose proof (plain_payload k Pk) as [Y1 Y2]. pose proof (now_mild k h Pk Eh Mh) as [N1 N2]. pose proof Pk as (Ok & Hpl & Af). cbn [swap sent_packets map fst snd].
    fold (sent_packets (swap ks g)). split; [|split; [|split; [|split]]].
    + constructor; [|exact I1]. unfold in_place. cbn [with_payload k_pusi k_haspl k_cc k_af k_payload]. do 4 (split; [reflexivity|]). split; [rewrite skipn_length; lia|exact N2].
    + unfold carried, body, instead in *. cbn [filter with_payload k_haspl]. rewrite Hpl. cbn [map concat k_payload with_payload]. rewrite I2. reflexivity.
    + unfold carried, body, sent in *. cbn [filter]. rewrite Hpl. cbn [map concat]. rewrite I3, Y1, Eh. reflexivity.
    + rewrite I4. reflexivity.
    + unfold arrived, come in *. cbn [flat_map filter snd]. unfold mild_packet, some_way, now in *. destruct (snd h) as [y|]; [|exact I5]. cbn [app map fst]. constructor; [|exact I5].
      destruct Mh as (L & B & F1 & F2 & F3 & F4). rewrite <- Eh in F1, F2, F3, F4.
      assert (F0 : flag (encode k) 26 = false) by (unfold flag, encode; rewrite f_af, Af; reflexivity). split; [|congruence].
      set (k' := with_payload k (skipn 4 y)). assert (Fe : encode k' = firstn 4 (encode k) ++ skipn 4 y).
      { unfold encode, k'. cbn [with_payload k_sync k_tei k_pusi k_prio k_pid k_tsc k_haspl k_cc k_af k_payload]. rewrite Af. cbn [af_bytes app].
        rewrite firstn_app, ts_header_length, Nat.sub_diag, firstn_O, app_nil_r. rewrite firstn_all2 by (rewrite ts_header_length; lia). reflexivity. }
      assert (F4k : length (firstn 4 (encode k)) = 4%nat) by (rewrite firstn_length; destruct Ok as [-> _]; reflexivity).
      assert (Q : forall o w, (o + w <= 32)%nat -> field (encode k') o w = field (encode k) o w).
      { intros o w H. rewrite Fe. pattern (encode k) at 2. rewrite <- (firstn_skipn 4 (encode k)). cbv beta. rewrite !field_prefix by lia. reflexivity. }
      split; [exact L|]. split; [rewrite Fe, app_length, F4k, skipn_length; lia|]. split; [exact B|]. split.
      { rewrite Fe. apply bytes_app. split; [|apply bytes_skipn; exact B]. apply bytes_firstn. exact (encode_bytes k Ok). }
      unfold flag in *. rewrite !Q by lia. do 4 (split; [congruence|]).
      rewrite Fe, skipn_app, F4k, Nat.sub_diag. rewrite (skipn_all2 (firstn 4 (encode k))) by lia. reflexivity.
Qed.

Lemma carries_plain cc ks s : carries ks s -> counted cc ks -> Forall (fun k => k_af k = None) ks -> Forall plain ks.
Proof.
  intros (k & r & c & st & -> & Hk & Hpl & _ & _ & Hc & _) C A. destruct C as (_ & _ & C). pose proof (continues_all _ _ C Hc) as O. inversion A as [|? ? A1 A2]; subst.
  constructor; [unfold plain; auto|]. clear - O A2 C. generalize dependent (k_cc k). induction O as [|k' r [O1 _] _ IH]; intros cc C; [constructor|]. destruct C as (C1 & _ & C). inversion A2; subst.
  constructor; [unfold plain; auto|]. eapply IH; eassumption.
Qed.
Lemma matches_fst g y : matches g y -> map fst g = map encode (sent_packets (fst y)).
Proof. intros (E & _). apply (f_equal (map fst)) in E. rewrite good_marks_fst in E. rewrite E. unfold enc, sent_packets. rewrite !map_map. reflexivity. Qed.
Lemma field_cut n b : (3 <= n)%nat -> (n <= length b)%nat -> field (firstn n b) 12 12 = field b 12 12.
Proof. intros H L. pattern b at 2. rewrite <- (firstn_skipn n b). cbv beta. rewrite field_prefix; [reflexivity|]. rewrite firstn_length. lia. Qed.
Lemma body_carries ks s g : carries ks s -> carried ks = body (sent g) -> exists st, body (sent g) = 0 :: s ++ st.
Proof.
  intros (k & r & c & st & -> & _ & Hpl & _ & Hpay & _ & _ & Hall & _) E. exists st. rewrite <- E. unfold carried. cbn [filter]. rewrite Hpl. cbn [map concat]. rewrite Hpay. cbn [app]. f_equal. exact Hall.
Qed.
(** the section sent, and what comes in its place *)
Lemma trip_sections cc g y : matches g y -> counted cc (sent_packets (fst y)) -> mild g ->
  section_in (sent g) = snd y /\ section_in (instead g) = t_seen (trip_of g y).
Proof.
  intros M C (Mp & Hd & Hl & _). pose proof (matches_fst g y M) as Ef. destruct M as (_ & Ca & F & _ & A). pose proof (carries_plain cc _ _ Ca C A) as P.
  destruct (swap_facts _ g P Ef Mp) as (I1 & I2 & I3 & _). destruct (body_carries _ _ g Ca I3) as (st & Eb). pose proof (framed_len _ F) as L3. destruct F as [_ Fl]. unfold section_length in Fl.
  assert (X : (3 + N.to_nat (field (tl (body (sent g))) 12 12))%nat = length (snd y)).
  { rewrite Eb. cbn [tl]. rewrite field_prefix by lia. clear - Fl. lia. }
  split.
  - unfold section_in. cbv zeta. rewrite X, Eb. cbn [tl]. rewrite firstn_app, Nat.sub_diag, firstn_O, app_nil_r, firstn_all. reflexivity.
  - unfold section_in. cbv zeta. rewrite Hl, X. unfold t_seen, trip_of. cbn [t_section t_got]. rewrite I2. reflexivity.
Qed.
Lemma trip_noisy min cc g y : (9 <= min)%nat -> matches g y -> counted cc (sent_packets (fst y)) -> mild g -> noisy min (trip_of g y).
Proof.
  intros Hm M C Mi. destruct (trip_sections cc g y M C Mi) as [S1 S2]. pose proof Mi as (Mp & Hd & Hl & Few). pose proof (matches_fst g y M) as Ef. destruct M as (_ & Ca & F & Cs & A). pose proof (carries_plain cc _ _ Ca C A) as P.
  destruct (swap_facts _ g P Ef Mp) as (I1 & I2 & I3 & _). destruct (body_carries _ _ g Ca I3) as (st & Eb). pose proof (framed_len _ F) as L3.
  rewrite S1, S2 in Few. unfold noisy. cbn [trip_of t_sent t_got t_section]. split; [exact Ca|]. split; [exact F|]. split; [exact I1|]. split; [rewrite I2; exact Hd|]. split.
  - unfold t_seen, section_length. cbn [trip_of t_got t_section]. rewrite I2. f_equal. f_equal. rewrite field_cut; [rewrite Hl, Eb; cbn [tl]; apply field_prefix; lia|exact L3|].
    destruct (in_place_carried _ _ I1) as [Lc _]. rewrite I2, I3, Eb in Lc. cbn [length] in Lc. rewrite app_length in Lc. destruct (body (instead g)); cbn [length tl] in *; lia.
  - destruct Few as [Few|Few]; [left; exact Few|right]. split; [exact Few|]. destruct Cs as [Cs|Cs]; [left; exact Cs|right; lia].
Qed.

Lemma counted_each xs : forall cc, counted cc (sent_packets (on_the_way xs)) -> Forall (fun x : marked * list N => exists c, counted c (sent_packets (fst x))) xs.
Proof.
  induction xs as [|x xs IH]; intros cc H; [constructor|]. unfold on_the_way in H. cbn [map concat] in H. rewrite sent_app in H. apply counted_app in H as [H1 H2]. constructor; [exists cc; exact H1|exact (IH _ H2)].
Qed.
Fixpoint trips (gs : list (list hit)) (ys : list (marked * list N)) : list trip :=
  match gs, ys with g :: gs', y :: ys' => trip_of g y :: trips gs' ys' | _, _ => [] end.
Lemma in_place_counted l l' : Forall2 in_place l l' -> forall cc, counted cc l -> counted cc l'.
Proof. induction 1 as [|k k' l l' H _ IH]; intros cc C; [exact I|]. destruct C as (C1 & C2 & C3). destruct H as (_ & H2 & H3 & _). cbn [counted]. split; [congruence|]. split; [congruence|]. rewrite H3. apply IH. exact C3. Qed.
Lemma trips_facts min gs ys : (9 <= min)%nat -> Forall2 matches gs ys -> Forall (fun x => exists c, counted c (sent_packets (fst x))) ys -> Forall mild gs ->
  Forall (noisy min) (trips gs ys) /\ Forall2 in_place (sent_packets (on_the_way ys)) (sent_packets (way (trips gs ys))) /\ unharmed (trips gs ys) = intact ys /\
  map snd (way (trips gs ys)) = map some_way (concat gs) /\ map fst (concat gs) = map encode (sent_packets (on_the_way ys)) /\
  Forall2 (fun a b => alike a b /\ (flag a 26 = true -> field a 32 8 < 251)) (come (concat gs)) (map encode (arrived (way (trips gs ys)))).
Proof.
  intros Hm H. induction H as [|g y gs ys M _ IH]; intros C Mi.
  - do 5 (split; [constructor|]). constructor.
  - inversion C as [|? ? [cc C1] C2]; subst. inversion Mi as [|? ? Mg Mi']; subst. destruct (IH C2 Mi') as (J1 & J2 & J3 & J4 & J5 & J6).
    destruct (trip_sections cc g y M C1 Mg) as [S1 S2]. pose proof (trip_noisy min cc g y Hm M C1 Mg) as Nz. pose proof (matches_fst g y M) as Ef. pose proof M as (Em & Ca & F & _ & A). pose proof (carries_plain cc _ _ Ca C1 A) as P.
    destruct (swap_facts _ g P Ef (proj1 Mg)) as (I1 & _ & _ & I4 & I5). cbn [trips]. unfold way, on_the_way in *. cbn [map concat trip_of t_got]. split; [|split; [|split; [|split; [|split]]]].
    + constructor; assumption.
    + rewrite !sent_app. apply Forall2_app; assumption.
    + unfold unharmed, intact in *. cbn [filter]. cbn [trip_of t_section t_got].
      assert (Q : forallb snd (swap (sent_packets (fst y)) g) && (if list_eq_dec N.eq_dec (t_seen (trip_of g y)) (snd y) then true else false) = forallb snd (fst y)).
      { transitivity (forallb snd (good_marks g)).
        - transitivity (forallb some_way g && (if list_eq_dec N.eq_dec (t_seen (trip_of g y)) (snd y) then true else false)).
          { f_equal. clear - I4. revert I4. generalize (swap (sent_packets (fst y)) g). induction g as [|h g IH]; intros [|z l] E; try discriminate; [reflexivity|]. cbn [map forallb] in *. injection E as E1 E2. rewrite E1, (IH _ E2). reflexivity. }
          unfold good_marks. rewrite S1, S2. destruct (list_eq_dec N.eq_dec _ (snd y)).
          + rewrite andb_true_r. clear. induction g as [|h g IH]; [reflexivity|]. cbn [come_marks map forallb snd]. rewrite IH. reflexivity.
          + rewrite andb_false_r. destruct g as [|h g]; [|reflexivity]. exfalso. destruct Ca as (k & ks & _ & _ & Ek & _). rewrite Ek in Ef. discriminate Ef.
        - rewrite Em. unfold enc. clear. generalize (fst y). intros l. induction l as [|z l IH]; [reflexivity|]. cbn [map forallb snd]. rewrite IH. reflexivity. }
      rewrite Q. clear Q. unfold marked in *. destruct (forallb snd (fst y)); cbn [map]; rewrite J3; reflexivity.
    + rewrite !map_app, I4, J4. reflexivity.
    + etransitivity; [apply map_app|]. rewrite sent_app. etransitivity; [|symmetry; apply map_app]. apply f_equal2; assumption.
    + unfold come, arrived in *. rewrite flat_map_app, filter_app, !map_app. apply Forall2_app; assumption.
Qed.
Lemma gaps_marks a : forall s b, map snd a = map snd b -> Forall2 in_place (sent_packets a) (sent_packets b) -> gaps_show s a -> gaps_show s b.
Proof.
  induction a as [|[k x] a IH]; intros s [|[k' x'] b] E I G; try discriminate; [exact G|]. cbn [map snd sent_packets fst] in *. injection E as <- E. inversion I as [|? ? ? ? (I1 & _) I2]; subst.
  cbn [gaps_show] in *. destruct x; [|apply (IH _ b E I2 G)]. rewrite I1. destruct (k_pusi k); [apply (IH _ b E I2 G)|]. destruct s; [exact G|apply (IH _ b E I2 G)|]. destruct G as [G1 G2]. split; [exact G1|apply (IH _ b E I2 G2)].
Qed.
Lemma each_run_all xs : concat (each_run xs) = all_hits xs.
Proof. unfold each_run, all_hits. induction xs as [|x xs IH]; [reflexivity|]. cbn [map concat]. rewrite concat_app, runs_concat, IH. reflexivity. Qed.
Lemma hits_delivered {T} (parse : mode -> T -> psi -> res T) add ids min rd bit m pid cc xs : (9 <= min)%nat -> (forall m', readable (parse m') (heard1 ids min) rd add) ->
  (forall a b c, add (add a b) c = add a (add b c)) -> gets add (heard1 ids min) rd bit ->
  pid < 8192 -> cc < 16 -> goes_out m pid cc (marks_of come_marks xs) -> Forall (fun x => Forall mild (runs (snd x))) xs -> shows Nothing (come_marks (all_hits xs)) ->
  exists ps, Forall2 (fun x o => bit (fst x) (good (snd x)) o) xs ps /\ forall m' p old, exists q, receive m' (parse m') p old (come (all_hits xs)) = Ok (q, fold_left add (somes ps) old).
Proof.
  intros Hm R A G Hp Hc O Mi S. destruct (deliver_hits add (heard1 ids min) rd bit m pid A G Hp xs cc Hc O) as (ys & M & C & us & ps & U & B & Q).
  exists ps. split; [exact B|]. intros m' p old.
  assert (Mi' : Forall mild (each_run xs)).
  { clear - Mi. unfold each_run. induction Mi as [|x xs H _ IH]; [constructor|]. cbn [map concat]. apply Forall_app. split; assumption. }
  destruct (trips_facts min _ ys Hm M (counted_each ys _ C) Mi') as (J1 & J2 & J3 & J4 & J5 & J6). rewrite each_run_all in *.
  rewrite (alike_receive m' (parse m') _ _ J6). rewrite <- Q.
  apply (through_noise m' (parse m') ids min rd add (R m') p old ((cc + 15) mod 16)); [exact J1|exact (in_place_counted _ _ J2 _ C)| |rewrite J3; exact U].
  destruct (unenc (sent_packets (on_the_way ys)) (come_marks (all_hits xs))) as (w & W1 & W2); [rewrite come_marks_fst; exact J5|].
  rewrite <- W2 in S. apply (gaps_marks w); [|rewrite W1; exact J2|apply shows_gaps; exact S].
  rewrite J4. apply (f_equal (map snd)) in W2. unfold enc, come_marks in W2. rewrite !map_map in W2. exact W2.
Qed.

Ltac assoc := intros; match goal with |- ?f _ _ = _ => unfold f end; cbn; f_equal; rewrite ?app_assoc; reflexivity.
Definition follows_hits {T} (parse : mode -> T -> psi -> res T) (add : T -> T -> T) (bit : table -> list (list N * bool) -> option T -> Prop) : Prop :=
  forall m pid cc xs, pid < 8192 -> cc < 16 -> goes_out m pid cc (marks_of come_marks xs) -> Forall (fun x => Forall mild (runs (snd x))) xs -> shows Nothing (come_marks (all_hits xs)) ->
  exists ps, Forall2 (fun x o => bit (fst x) (good (snd x)) o) xs ps /\ forall m' p old, exists q, receive m' (parse m') p old (come (all_hits xs)) = Ok (q, fold_left add (somes ps) old).
Lemma pat_hits : follows_hits pat_parse pat_add pat_bit.
Proof. intros m pid cc xs. apply (hits_delivered pat_parse pat_add id_pat 12 pat_reads); [lia|exact pat_readable|assoc|exact pat_gets]. Qed.
Lemma pmt_hits : follows_hits pmt_parse pmt_add pmt_bit.
Proof. intros m pid cc xs. apply (hits_delivered pmt_parse pmt_add id_pmt 16 pmt_seen); [lia|exact pmt_readable|assoc|exact pmt_gets]. Qed.
Lemma nit_hits : follows_hits nit_parse nit_add nit_bit.
Proof. intros m pid cc xs. apply (hits_delivered nit_parse nit_add id_nit 16 nit_reads); [lia|exact nit_readable|assoc|exact nit_gets]. Qed.
Lemma sdt_hits : follows_hits sdt_parse sdt_add sdt_bit.
Proof. intros m pid cc xs. apply (hits_delivered sdt_parse sdt_add id_sdt 15 sdt_reads); [lia|exact sdt_readable|assoc|exact sdt_gets]. Qed.
Lemma eit_hits : follows_hits eit_parse eit_add eit_bit.
Proof. intros m pid cc xs. apply (hits_delivered eit_parse eit_add id_eit 18 eit_reads); [lia|exact eit_readable|assoc|exact eit_gets]. Qed.
Lemma tot_hits : follows_hits tot_parse tot_add tot_bit.
Proof. intros m pid cc xs. apply (hits_delivered tot_parse tot_add id_tot 14 tot_reads); [lia|exact tot_readable|assoc|exact tot_gets]. Qed.

(** ** what counts as arrived *)
Lemma good_whole l : whole (good l) <-> Forall (fun x => some_way x = true) l /\ Forall (fun g => section_in (instead g) = section_in (sent g)) (runs l).
Proof.
  pose proof (runs_some l) as Ne. unfold whole, good. rewrite <- (runs_concat l) at 2. induction Ne as [|g gs Ng _ IH]; [split; [split; constructor|constructor]|].
  cbn [map concat]. rewrite !Forall_app, IH, Forall_cons_iff. unfold good_marks at 1. destruct (list_eq_dec _ _ _) as [E|E].
  - unfold come_marks. rewrite Forall_map. cbn [snd]. tauto.
  - split; [|tauto]. intros [H _]. exfalso. destruct g; [exact (Ng eq_refl)|]. inversion H as [|? ? H1 H2]; subst. discriminate H1.
Qed.
Lemma good_clean l : Forall (fun g => section_in (instead g) = section_in (sent g)) (runs l) -> good l = come_marks l.
Proof.
  intros H. unfold good. rewrite <- (runs_concat l) at 2. induction H as [|g gs E _ IH]; [reflexivity|]. cbn [map concat]. rewrite IH. unfold good_marks. destruct (list_eq_dec _ _ _); [|contradiction].
  unfold come_marks. rewrite map_app. reflexivity.
Qed.

(** ** a PID of a multiplex *)
Lemma hits_split a : forall b l, come_marks l = a ++ b -> exists u v, l = u ++ v /\ come_marks u = a /\ come_marks v = b.
Proof.
  induction a as [|x a IH]; intros b l E; [exists [], l; auto|]. destruct l as [|h l]; [discriminate|]. unfold come_marks in E. cbn [map app] in E. injection E as E1 E2.
  destruct (IH b l E2) as (u & v & -> & <- & <-). exists (h :: u), v. split; [reflexivity|]. split; [rewrite <- E1; reflexivity|reflexivity].
Qed.
Lemma lift_hits ys : forall l, all_packets ys = come_marks l -> exists xs, marks_of come_marks xs = ys /\ all_hits xs = l.
Proof.
  unfold all_packets. induction ys as [|[t a] ys IH]; intros l E.
  - destruct l; [|discriminate]. exists []. auto.
  - cbn [map snd concat] in E. symmetry in E. apply hits_split in E as (u & v & -> & <- & Ev). destruct (IH v (eq_sym Ev)) as (xs & <- & <-). exists ((t, u) :: xs). split; reflexivity.
Qed.
Lemma come_filter pid l : Forall same_pid l -> filter (on pid) (come l) = come (filter (fun x => on pid (fst x)) l).
Proof.
  induction 1 as [|x l H _ IH]; [reflexivity|]. unfold come in *. cbn [flat_map filter]. unfold same_pid in H. destruct (snd x) as [y|] eqn:E; cbn [app].
  - destruct H as (_ & _ & _ & H). assert (Q : on pid y = on pid (fst x)) by (unfold on; rewrite H; reflexivity). cbn [filter]. rewrite Q. destruct (on pid (fst x)); cbn [flat_map]; rewrite ?E, IH; reflexivity.
  - destruct (on pid (fst x)); cbn [flat_map]; rewrite ?E, IH; reflexivity.
Qed.
Lemma multi_hits m jobs c dst c' mk pid : is_out m jobs c dst c' (map fst mk) -> Forall same_pid mk ->
  in_stream (concat (come mk)) (come mk) /\ bytes (concat (come mk)) /\
  exists xs, map fst xs = tables_on pid jobs /\ all_hits xs = filter (fun x => on pid (fst x)) mk /\ goes_out m pid (c pid) (marks_of come_marks xs) /\ filter (on pid) (come mk) = come (all_hits xs).
Proof.
  intros O Sp. assert (B : bytes (concat (come mk))).
  { unfold come. clear - Sp. induction Sp as [|x l H _ IH]; [constructor|]. cbn [flat_map]. rewrite concat_app. apply bytes_app. split; [|exact IH]. unfold same_pid in H. destruct (snd x); [|constructor].
    cbn [concat]. rewrite app_nil_r. apply H. }
  split; [|split; [exact B|]].
  - apply in_concat; [|exact B]. unfold come. clear - Sp. induction Sp as [|x l H _ IH]; [constructor|]. cbn [flat_map]. apply Forall_app. split; [|exact IH]. unfold same_pid in H. destruct (snd x); [|constructor].
    constructor; [tauto|constructor].
  - destruct (multi_lossy m jobs c dst c' (come_marks mk) pid) as (ys & Y1 & Y2 & Y3); [rewrite come_marks_fst; exact O|].
    destruct (lift_hits ys (filter (fun x => on pid (fst x)) mk)) as (xs & <- & X2).
    { rewrite Y2. unfold come_marks. clear. induction mk as [|x mk IH]; [reflexivity|]. cbn [map filter fst]. destruct (on pid (fst x)); cbn [map]; rewrite IH; reflexivity. }
    exists xs. split; [rewrite <- Y1; unfold marks_of; rewrite map_map; reflexivity|]. split; [exact X2|]. split; [exact Y3|]. rewrite X2. apply come_filter. exact Sp.
Qed.

(** ** a check for examples *)
Definition errs (a b : list N) : list N := map (fun p => N.lxor (fst p) (snd p)) (combine a b).
Definition list_same (a b : list N) : bool := if list_eq_dec N.eq_dec a b then true else false.
Definition mild_packet_check (x : hit) : bool :=
  match snd x with
  | None => true
  | Some y => (length y =? 188)%nat && forallb (fun b => b <? 256) y && Bool.eqb (flag y 9) (flag (fst x) 9) && Bool.eqb (flag y 26) (flag (fst x) 26) && Bool.eqb (flag y 27) (flag (fst x) 27) && (field y 28 4 =? field (fst x) 28 4)
  end.
Definition mild_check (g : list hit) : bool :=
  forallb mild_packet_check g && (hd 0 (body (instead g)) =? 0) && (field (tl (body (instead g))) 12 12 =? field (tl (body (sent g))) 12 12) &&
  let a := section_in (sent g) in let b := section_in (instead g) in let e := errs a b in
  list_same b a || (forallb (fun b => b <? 256) e && (length e =? length a)%nat && list_same b (xor_bytes a e) && (1 <=? weight e)%nat && (weight e <=? 3)%nat).
Lemma list_same_ok a b : list_same a b = true -> a = b.
Proof. unfold list_same. destruct (list_eq_dec N.eq_dec a b); [auto|discriminate]. Qed.
Lemma bytes_check l : forallb (fun b => b <? 256) l = true -> bytes l.
Proof. intros H. apply Forall_forall. intros x I. rewrite forallb_forall in H. apply N.ltb_lt, H, I. Qed.
Lemma mild_checked g : mild_check g = true -> mild g.
Proof.
  unfold mild_check. cbv zeta. rewrite !andb_true_iff. intros [[[H1 H2] H3] H4]. split; [|split; [|split]].
  - apply Forall_forall. intros x I. rewrite forallb_forall in H1. specialize (H1 x I). unfold mild_packet_check, mild_packet in *. destruct (snd x); [|exact Logic.I].
    rewrite !andb_true_iff, !eqb_true_iff, Nat.eqb_eq, N.eqb_eq in H1. destruct H1 as [[[[[A B] C] D] E] F]. apply bytes_check in B. auto 8.
  - apply N.eqb_eq. exact H2.
  - apply N.eqb_eq. exact H3.
  - apply orb_true_iff in H4 as [H4|H4]; [left; apply list_same_ok; exact H4|right]. rewrite !andb_true_iff, !Nat.leb_le, Nat.eqb_eq in H4. destruct H4 as [[[[A B] C] D] E]. apply bytes_check in A. apply list_same_ok in C.
    eexists. split; [exact A|]. split; [exact B|]. split; [exact C|]. left. lia.
Qed.
Lemma whole_check l : whole l -> forallb snd l = true.
Proof. intros W. apply forallb_forall. intros x I. unfold whole in W. rewrite Forall_forall in W. exact (W x I). Qed.
