(** Proofs for C107. *)
From Verif Require Import Prelude Layout Facts S_ts M_ts P_ts W_ts M_pes M_play S_play P_play M_count S_count P_count M_carry S_carry.
From Verif Require P_found.

Lemma set_af sync tei pusi prio pid tsc pl cc rest :
  (b <- get (ts_header sync tei pusi prio pid tsc 0 pl cc ++ rest) 3 ;; set (ts_header sync tei pusi prio pid tsc 0 pl cc ++ rest) 3 (N.lor b 0x20)) =
  Ok (ts_header sync tei pusi prio pid tsc 1 pl cc ++ rest).
Proof. header_setter. list_eq; byte_eq. Qed.

Lemma null_eq : NULL_PACKET = ts_header 0x47 0 0 0 0x1FFF 0 0 1 0 ++ repeat 0xFF 184.
Proof. vm_compute. reflexivity. Qed.

Lemma set4 (h r : list N) a v : length h = 4%nat -> set (h ++ a :: r) 4 v = Ok (h ++ v :: r).
Proof. intros H. rewrite <- (Nat.add_0_r 4), <- H at 1. rewrite P_desc.set_at. reflexivity. Qed.
Lemma set5 (h r : list N) a b v : length h = 4%nat -> set (h ++ a :: b :: r) 5 v = Ok (h ++ a :: v :: r).
Proof. intros H. replace 5%nat with (length h + 1)%nat by lia. rewrite P_desc.set_at. reflexivity. Qed.

Lemma one m pid cc (first : bool) pcr d : pid < 8192 -> cc < 16 -> (length d <= room pcr)%nat ->
  carry_one m pid cc first pcr d = Ok (es_packet pid (if first then 1 else 0) (mkPiece 0 cc (filling pcr (length d)) d)).
Proof.
  intros P C L. unfold carry_one. rewrite null_eq.
  rewrite set_pid_spec by exact P. cbn [bind]. rewrite set_cc_spec by exact C. cbn [bind].
  assert (U : (if first then set_pusi_1 (ts_header 0x47 0 0 0 pid 0 0 1 cc ++ repeat 0xFF 184) else set_pusi_0 (ts_header 0x47 0 0 0 pid 0 0 1 cc ++ repeat 0xFF 184)) =
              Ok (ts_header 0x47 0 (if first then 1 else 0) 0 pid 0 0 1 cc ++ repeat 0xFF 184)).
  { destruct first; [apply set_pusi_1_spec|apply set_pusi_0_spec]. }
  rewrite U. cbn [bind]. rewrite set_payload_1_spec. cbn [bind]. clear U. set (u := if first then 1 else 0).
  assert (HL : forall af, length (ts_header 0x47 0 u 0 pid 0 af 1 cc) = 4%nat) by (intros; apply hdr_len).
  assert (D : (length d <= 184)%nat) by (destruct pcr; cbn [room] in L; lia).
  unfold es_packet. cbn [e_prio e_cc e_af e_data].
  destruct (Nat.eqb_spec (length d) 184) as [E|E].
  - destruct pcr as [v|]; [cbn [room] in L; lia|]. cbn [filling]. rewrite E. cbn [Nat.eqb af_bytes app bind].
    change (188 - 184)%nat with 4%nat.
    rewrite <- (app_nil_r (repeat 0xFF 184)). rewrite copy_from_ok by first [rewrite HL; reflexivity|rewrite HL, repeat_length; reflexivity|rewrite repeat_length; exact E].
    rewrite app_nil_r. reflexivity.
  - change (repeat 0xFF 184) with (0xFF :: 0xFF :: repeat 0xFF 182).
    assert (A := set_af 0x47 0 u 0 pid 0 1 cc (0xFF :: 0xFF :: repeat 0xFF 182)).
    destruct (get (ts_header 0x47 0 u 0 pid 0 0 1 cc ++ 0xFF :: 0xFF :: repeat 0xFF 182) 3) as [b3| |]; cbn [bind] in A |- *; try discriminate A.
    rewrite A. cbn [bind]. clear A. rewrite set4 by apply HL. cbn [bind].
    destruct pcr as [v|]; cbn [room] in L; cbn [filling].
    + rewrite set5 by apply HL. cbn [bind].
      rewrite set_pcr_spec by (rewrite app_length, HL; cbn [length]; rewrite repeat_length; lia). cbn [bind].
      set (h := ts_header 0x47 0 u 0 pid 0 1 1 cc) in *. assert (HL1 : length h = 4%nat) by apply HL.
      set (q := pcr_bytes (v / 300) 63 (v mod 300)). assert (QL : length q = 6%nat) by (unfold q, pcr_bytes; rewrite P_desc.layout_length by reflexivity; reflexivity).
      replace (firstn 6 (h ++ N.of_nat (183 - length d) :: 0x10 :: repeat 0xFF 182)) with (h ++ [N.of_nat (183 - length d); 0x10])
        by (rewrite firstn_app, HL1, firstn_all2 by lia; reflexivity).
      replace (skipn 12 (h ++ N.of_nat (183 - length d) :: 0x10 :: repeat 0xFF 182)) with (repeat 0xFF 176)
        by (rewrite skipn_app, HL1, skipn_all2 by lia; reflexivity).
      change (layout [(3%nat, 0); (1%nat, 1); (4%nat, 0)]) with [0x10].
      assert (RR : repeat 0xFF 176 = repeat 0xFF (176 - length d) ++ repeat 0xFF (length d)) by (rewrite <- repeat_app; f_equal; lia). rewrite RR. clear RR.
      replace ((h ++ [N.of_nat (183 - length d); 16]) ++ q ++ repeat 255 (176 - length d) ++ repeat 255 (length d))
        with ((h ++ [N.of_nat (183 - length d); 16] ++ q ++ repeat 255 (176 - length d)) ++ repeat 255 (length d) ++ [])
        by (rewrite app_nil_r, !app_assoc; reflexivity).
      rewrite copy_from_ok by (rewrite ?app_length, ?HL1, ?QL, ?repeat_length; cbn [length]; lia).
      rewrite app_nil_r. cbn [af_bytes]. f_equal.
      replace (N.of_nat (length ([0x10] ++ q ++ repeat 255 (176 - length d)))) with (N.of_nat (183 - length d)) by (rewrite ?app_length, ?QL, ?repeat_length; cbn [length]; lia).
      rewrite <- app_assoc. reflexivity.
    + destruct (Nat.eqb_spec (length d) 184) as [E'|_]; [contradiction|].
      set (h := ts_header 0x47 0 u 0 pid 0 1 1 cc) in *. assert (HL1 : length h = 4%nat) by apply HL.
      destruct (Nat.eqb_spec (length d) 183) as [E3|E3].
      * cbn [bind af_bytes]. rewrite E3. change (N.of_nat (183 - 183)) with 0. change (188 - 183)%nat with 5%nat.
        change (h ++ 0 :: 0xFF :: repeat 0xFF 182) with (h ++ [0] ++ repeat 0xFF 183). rewrite app_assoc, <- (app_nil_r (repeat 0xFF 183)).
        rewrite copy_from_ok by (rewrite ?app_length, ?HL1, ?repeat_length; cbn [length]; lia).
        rewrite app_nil_r. change (N.of_nat (length (@nil N))) with 0. rewrite <- app_assoc. reflexivity.
      * rewrite set5 by exact HL1. cbn [bind].
        assert (RR : repeat 0xFF 182 = repeat 0xFF (182 - length d) ++ repeat 0xFF (length d)) by (rewrite <- repeat_app; f_equal; lia). rewrite RR. clear RR.
        replace (h ++ N.of_nat (183 - length d) :: 0 :: repeat 0xFF (182 - length d) ++ repeat 0xFF (length d))
          with ((h ++ [N.of_nat (183 - length d); 0] ++ repeat 0xFF (182 - length d)) ++ repeat 0xFF (length d) ++ [])
          by (rewrite app_nil_r, <- !app_assoc; reflexivity).
        rewrite copy_from_ok by (rewrite ?app_length, ?HL1, ?repeat_length; cbn [length]; lia).
        rewrite app_nil_r. cbn [af_bytes]. f_equal.
        replace (N.of_nat (length (0 :: repeat 0xFF (182 - length d)))) with (N.of_nat (183 - length d)) by (cbn [length]; rewrite repeat_length; lia).
        rewrite <- app_assoc. reflexivity.
Qed.

Lemma filling_ok pcr c d : bytes d -> (length d <= room pcr)%nat -> piece_ok (mkPiece 0 c (filling pcr (length d)) d).
Proof.
  intros B L. unfold piece_ok. cbn [e_af e_data]. assert (R : forall n, bytes (repeat 255 n)) by (intros; apply bytes_repeat; reflexivity).
  destruct pcr as [v|]; cbn [filling room] in *.
  - assert (QL : forall a b, length (pcr_bytes a 63 b) = 6%nat) by (intros; unfold pcr_bytes; rewrite P_desc.layout_length by reflexivity; reflexivity).
    change (layout [(3%nat, 0); (1%nat, 1); (4%nat, 0)]) with [0x10].
    split; [cbn [af_bytes length]; rewrite !app_length, QL, repeat_length; cbn [length]; lia|]. split; [|exact B].
    apply bytes_app. split; [constructor; [reflexivity|constructor]|]. apply bytes_app. split; [apply layout_bytes|apply R].
  - destruct (Nat.eqb_spec (length d) 184) as [E|E]; [split; [cbn [af_bytes length]; lia|split; [constructor|exact B]]|].
    destruct (Nat.eqb_spec (length d) 183) as [E3|E3]; [split; [cbn [af_bytes length]; lia|split; [constructor|exact B]]|].
    split; [cbn [af_bytes length]; rewrite repeat_length; lia|]. split; [|exact B]. constructor; [reflexivity|apply R].
Qed.

Lemma next c : N.land (c + 1) 0x0F = (c + 1) mod 16.
Proof. change 0x0F with (N.ones 4). rewrite N.land_ones. reflexivity. Qed.

Lemma more m pid : pid < 8192 -> forall n d c, bytes d -> c < 16 -> (length d <= n)%nat ->
  exists l, carry_more m pid n c d = Ok (map (es_packet pid 0) l, (c + N.of_nat (length l)) mod 16) /\ Forall piece_ok l /\
            concat (map e_data l) = d /\ cut_up None c l /\ length l = ((length d + 183) / 184)%nat.
Proof.
  intros P. induction n as [|n IH]; intros d c B C L.
  - destruct d; [|cbn in L; lia]. exists []. cbn [carry_more map length concat cut_up]. rewrite N.add_0_r, N.mod_small by exact C. repeat split. constructor.
  - destruct d as [|b d]; [exists []; cbn [carry_more map length concat cut_up]; rewrite N.add_0_r, N.mod_small by exact C; repeat split; constructor|].
    set (w := b :: d) in *. assert (W : (1 <= length w)%nat) by (cbn [w length]; lia).
    change (carry_more m pid (S n) c w) with (p <- carry_one m pid c false None (firstn 184 w) ;; ' (r, c') <- carry_more m pid n (N.land (c + 1) 0x0F) (skipn 184 w) ;; Ok (p :: r, c')).
    pose proof (firstn_le_length 184 w) as F. pose proof (firstn_length 184 w) as FL.
    rewrite one by (assumption || exact F). cbn [bind]. rewrite next.
    destruct (IH (skipn 184 w) ((c + 1) mod 16)) as (l & E & K & D & U & LN);
      [apply bytes_skipn; exact B|apply N.mod_lt; discriminate|rewrite skipn_length; lia|].
    rewrite E. cbn [bind]. exists (mkPiece 0 c (filling None (length (firstn 184 w))) (firstn 184 w) :: l).
    split. { cbn [map length]. do 2 f_equal. dlia. }
    split; [constructor; [apply filling_ok; [apply bytes_firstn; exact B|exact F]|exact K]|].
    split; [cbn [map concat e_data]; rewrite D; apply firstn_skipn|].
    rewrite skipn_length in LN.
    split.
    + cbn [cut_up e_prio e_cc e_af e_data room]. split; [reflexivity|]. split; [reflexivity|]. split; [reflexivity|]. split; [exact F|]. split; [|exact U].
      intros N0. destruct l as [|y l]; [congruence|]. cbn [length] in LN. rewrite FL. dlia.
    + cbn [length]. rewrite LN. dlia.
Qed.

Lemma carry_ok m pid c pcr d : pid < 8192 -> c < 16 -> bytes d ->
  exists l, carry m pid c pcr d = Ok (unit_packets pid l, (c + N.of_nat (length l)) mod 16) /\ pieces_of l d /\ cut_up pcr c l /\ length l = packets_for pcr (length d).
Proof.
  intros P C B. unfold carry. change (match pcr with Some _ => 176%nat | None => 184%nat end) with (room pcr). cbv zeta.
  pose proof (firstn_le_length (room pcr) d) as F. pose proof (firstn_length (room pcr) d) as FL.
  rewrite one by (assumption || exact F). cbn [bind]. rewrite next.
  destruct (more m pid P (length d) (skipn (room pcr) d) ((c + 1) mod 16)) as (l & E & K & D & U & LN);
    [apply bytes_skipn; exact B|apply N.mod_lt; discriminate|rewrite skipn_length; lia|].
  rewrite E. cbn [bind]. rewrite skipn_length in LN.
  exists (mkPiece 0 c (filling pcr (length (firstn (room pcr) d))) (firstn (room pcr) d) :: l).
  split. { cbn [unit_packets length]. do 2 f_equal. dlia. }
  split. { split; [discriminate|]. split; [constructor; [apply filling_ok; [apply bytes_firstn; exact B|exact F]|exact K]|].
    cbn [map concat e_data]. rewrite D. apply firstn_skipn. }
  split; [|unfold packets_for; cbn [length]; rewrite LN; reflexivity].
  cbn [cut_up e_prio e_cc e_af e_data]. split; [reflexivity|]. split; [reflexivity|]. split; [reflexivity|]. split; [exact F|]. split; [|exact U].
  intros N0. destruct l as [|y l]; [congruence|]. cbn [length] in LN. rewrite FL. dlia.
Qed.

Lemma carry_all_ok m pid ps : pid < 8192 -> forall c, c < 16 -> Forall (fun x => bytes (snd x)) ps ->
  exists ls, carry_all m pid c ps = Ok (concat (map (unit_packets pid) ls), (c + N.of_nat (length (concat ls))) mod 16) /\ Forall2 pieces_of ls (map snd ps) /\
    all_cut c (combine (map fst ps) ls) /\ map (@length piece) ls = map (fun x => packets_for (fst x) (length (snd x))) ps.
Proof.
  intros P. induction ps as [|[pcr d] ps IH]; intros c C F.
  - exists []. cbn [carry_all map concat length combine all_cut]. rewrite N.add_0_r, N.mod_small by exact C. repeat split. constructor.
  - inversion F as [|? ? B F']; subst. cbn [snd] in B. destruct (carry_ok m pid c pcr d P C B) as (l & E & K & U & LN).
    destruct (IH ((c + N.of_nat (length l)) mod 16)) as (ls & E2 & K2 & U2 & LN2); [apply N.mod_lt; discriminate|exact F'|].
    exists (l :: ls). cbn [carry_all]. rewrite E. cbn [bind]. rewrite E2. cbn [bind map concat snd fst combine all_cut]. split.
    { do 2 f_equal. rewrite app_length. dlia. }
    split; [constructor; assumption|]. split; [split; assumption|]. rewrite LN, LN2. reflexivity.
Qed.

(** ** received again *)
Lemma among_refl pid l : among pid l l.
Proof. induction l; constructor; assumption. Qed.
Definition sure (l : list piece) : marked := map (fun x => (x, true)) l.
Lemma step_later l : forall c k pcr, cut_up pcr c l -> c < 16 -> in_step ((c + N.of_nat (length l)) mod 16) k -> in_step c (later_pieces (sure l) ++ k).
Proof.
  induction l as [|x l IH]; intros c k pcr H C K; [cbn [length] in K; rewrite N.add_0_r, N.mod_small in K by exact C; exact K|].
  cbn [sure map later_pieces app fst snd in_step]. destruct H as (_ & H & _ & _ & _ & H'). split; [exact H|].
  apply (IH _ k None H'); [apply N.mod_lt; discriminate|]. replace (((c + 1) mod 16 + N.of_nat (length l)) mod 16) with ((c + N.of_nat (length (x :: l))) mod 16) by (cbn [length]; dlia). exact K.
Qed.
Lemma step_unit l c k pcr : cut_up pcr c l -> c < 16 -> in_step ((c + N.of_nat (length l)) mod 16) k -> in_step c (unit_pieces (sure l) ++ k).
Proof.
  intros H C K. pose proof (step_later l c k pcr H C K) as R. destruct l as [|x l]; [exact R|]. exact R.
Qed.
Lemma step_all ls : forall (ps : list (option N)) c, length ls = length ps -> all_cut c (combine ps ls) -> c < 16 -> in_step c (concat (map unit_pieces (map sure ls))).
Proof.
  induction ls as [|l ls IH]; intros [|p ps] c L H C; try discriminate L; [exact I|]. destruct H as [H1 H2]. injection L as L. cbn [map concat].
  apply (step_unit l c _ p H1 C). apply (IH ps); [exact L|exact H2|apply N.mod_lt; discriminate].
Qed.
Lemma gaps_true l : Forall (fun y => snd y = true) l -> forall lost, lost = None \/ lost = Some 0 -> gaps_show lost l.
Proof.
  induction 1 as [|[[u x] b] l E F IH]; intros lost H; [exact I|]. cbn [snd] in E. subst b. cbn [gaps_show]. split; [|apply IH; right; reflexivity].
  destruct H as [->| ->]; [exact I|left; reflexivity].
Qed.
Lemma sure_true l : Forall (fun y => snd y = true) (unit_pieces (sure l)).
Proof.
  destruct l as [|x l]; [constructor|]. cbn [sure map unit_pieces]. constructor; [reflexivity|]. unfold later_pieces. apply Forall_map, Forall_map. apply Forall_forall. reflexivity.
Qed.
Lemma sure_all_true ls : Forall (fun y => snd y = true) (concat (map unit_pieces (map sure ls))).
Proof. induction ls as [|l ls IH]; [constructor|]. cbn [map concat]. apply Forall_app. split; [apply sure_true|exact IH]. Qed.
Lemma sure_later_arrive pid l : arrived pid (later_pieces (sure l)) = map (es_packet pid 0) l.
Proof. induction l as [|x l IH]; [reflexivity|]. cbn [sure map later_pieces fst snd]. cbn [map]. rewrite <- IH. reflexivity. Qed.
Lemma sure_arrive pid l : arrived pid (unit_pieces (sure l)) = unit_packets pid l.
Proof. destruct l as [|x l]; [reflexivity|]. cbn [unit_packets]. rewrite <- sure_later_arrive. reflexivity. Qed.
Lemma sure_all_arrive pid ls : arrived pid (concat (map unit_pieces (map sure ls))) = concat (map (unit_packets pid) ls).
Proof. induction ls as [|l ls IH]; [reflexivity|]. cbn [map concat]. rewrite <- IH, <- (sure_arrive pid l). unfold arrived. apply flat_map_app. Qed.
Lemma sound pid u x : piece_ok x -> length (es_packet pid u x) = 188%nat /\ hd 0 (es_packet pid u x) = 0x47.
Proof.
  intros (L & _). split; [unfold es_packet; rewrite !app_length, hdr_len; lia|]. reflexivity.
Qed.

Lemma play_carried m m' pid c (ps : list (option N * (pes * bool))) : pid < 8192 -> c < 16 ->
  Forall (fun x => pes_ok (fst (snd x)) /\ length_ok (fst (snd x)) (snd (snd x))) ps ->
  exists pks c', carry_all m pid c (map (fun x => (fst x, pes_bytes (fst (snd x)) (snd (snd x)))) ps) = Ok (pks, c') /\
    play m' pid pks = Ok (map (fun x => Some (holds (fst (snd x)))) ps) /\
    careful m' pid pks = Ok (map (fun x => Some (holds (fst (snd x)))) (removelast ps)) /\
    Forall (fun pk => length pk = 188%nat /\ hd 0 pk = 0x47) pks.
Proof.
  intros P C O. set (qs := map (fun x => (fst x, pes_bytes (fst (snd x)) (snd (snd x)))) ps).
  destruct (carry_all_ok m pid qs P c C) as (ls & E & F & U & _).
  { unfold qs. apply Forall_map. eapply Forall_impl; [|exact O]. intros x (H1 & H2). apply pes_bytes_bytes. exact H1. }
  exists (concat (map (unit_packets pid) ls)), ((c + N.of_nat (length (concat ls))) mod 16). split; [exact E|]. clear E.
  assert (FS : map snd qs = map (fun x => pes_bytes (fst (snd x)) (snd (snd x))) ps) by (unfold qs; rewrite map_map; reflexivity).
  assert (FF : map fst qs = map fst ps) by (unfold qs; rewrite map_map; reflexivity). rewrite FS in F. rewrite FF in U. clear FS FF qs.
  assert (LL : length ls = length ps) by (clear -F; revert ps F; induction ls as [|l ls IH]; intros [|p ps] F; inversion F; subst; [reflexivity|]; cbn [length]; f_equal; apply IH; assumption).
  assert (PO : Forall (fun l => l <> [] /\ Forall piece_ok l) ls).
  { clear -F. induction F as [|l q ls qs (H1 & H2 & _) F IH]; constructor; [split; assumption|exact IH]. }
  split.
  { rewrite (play_all m' pid [] ls (map snd ps) (concat (map (unit_packets pid) ls)));
      [rewrite map_map; reflexivity|constructor|rewrite map_map; exact F|exact P|apply Forall_map; exact O|apply among_refl]. }
  split.
  - set (us := combine (map sure ls) (map snd ps)).
    assert (U1 : map fst us = map sure ls).
    { unfold us. clear -LL. revert ps LL. induction ls as [|l ls IH]; intros [|p ps] LL; try discriminate; [reflexivity|]. cbn [map combine fst]. f_equal. apply IH. injection LL as LL. exact LL. }
    rewrite (careful_given m' pid c [] us (concat (map (unit_packets pid) ls)) P C).
    + rewrite given_whole.
      * unfold us. clear -LL. f_equal. revert ls LL. induction ps as [|p ps IH]; intros [|l ls] LL; try discriminate; [reflexivity|]. injection LL as LL. specialize (IH ls LL).
        destruct ps as [|q ps], ls as [|k ls]; try discriminate LL; [reflexivity|]. cbn [map combine] in IH |- *.
        change (removelast ((sure l, snd p) :: (sure k, snd q) :: ?r)) with ((sure l, snd p) :: removelast ((sure k, snd q) :: r)).
        change (removelast (p :: q :: ps)) with (p :: removelast (q :: ps)). cbn [map snd]. f_equal. exact IH.
      * apply Forall_forall. intros [u a] X. apply in_combine_l in X. apply in_map_iff in X as (l & <- & X). cbn [fst].
        destruct (proj1 (Forall_forall _ _) PO l X) as (N0 & _). split; [destruct l; [congruence|discriminate]|].
        unfold whole. apply forallb_forall. intros y Y. apply in_map_iff in Y as (z & <- & _). reflexivity.
    + constructor.
    + unfold us. clear -F LL. revert ps F LL. induction ls as [|l ls IH]; intros [|p ps] F LL; try discriminate; [constructor|]. cbn [map] in F. inversion F as [|? ? ? ? (H1 & H2 & H3) F']; subst. cbn [map combine].
      constructor; [|apply IH; [exact F'|injection LL as LL; exact LL]]. cbn [fst snd]. split; [destruct l; [congruence|discriminate]|]. split.
      * apply Forall_map. exact H2.
      * unfold data, sure. rewrite map_map. cbn [fst]. exact H3.
    + unfold us. clear -O. apply Forall_forall. intros [u a] X. apply in_combine_r in X. apply in_map_iff in X as (p & <- & X). cbn [snd]. exact (proj1 (Forall_forall _ _) O p X).
    + rewrite U1. apply (step_all ls (map fst ps)); [rewrite map_length; exact LL|exact U|exact C].
    + rewrite U1. apply gaps_true; [apply sure_all_true|left; reflexivity].
    + rewrite U1. change (on_air [] (map sure ls)) with (concat (map unit_pieces (map sure ls))). rewrite sure_all_arrive. apply among_refl.
  - clear -PO. induction PO as [|l ls (N0 & K) PO IH]; [constructor|]. cbn [map concat]. apply Forall_app. split; [|exact IH].
    destruct l as [|x l]; [constructor|]. inversion K; subst. cbn [unit_packets]. constructor; [apply sound; assumption|]. apply Forall_map. eapply Forall_impl; [|eassumption]. intros y. apply sound.
Qed.

(** ** the clock *)
Lemma clock_piece m pid u c pcr d : bytes d -> pid < 8192 -> (length d <= room pcr)%nat -> (match pcr with Some v => v <= PCR_MAX | None => True end) ->
  clock_of m (es_packet pid u (mkPiece 0 c (filling pcr (length d)) d)) = Ok pcr.
Proof.
  intros B P L V. set (x := mkPiece 0 c (filling pcr (length d)) d). assert (K : piece_ok x) by (apply filling_ok; assumption).
  destruct (sound pid u x K) as (LN & _). pose proof (P_found.own_bytes pid u x K) as BB.
  assert (AD : is_adaptation (es_packet pid u x) = Ok (match e_af x with Some _ => true | None => false end)).
  { unfold es_packet. destruct (getters_of_table 0x47 0 u (e_prio x) pid 0 (match e_af x with Some _ => 1 | None => 0 end) 1 (e_cc x) (af_bytes (e_af x) ++ e_data x)) as (_ & _ & _ & _ & _ & G & _).
    - apply bytes_app. split; [|exact B]. destruct K as (K1 & K2 & _). destruct (e_af x) as [b|]; [|constructor]. constructor; [|exact K2]. cbn [af_bytes length] in K1. lia.
    - rewrite G. destruct (e_af x); reflexivity. }
  unfold clock_of. unfold is_pcr. rewrite AD. cbn [bind].
  assert (SZ : forall b, e_af x = Some b -> get_adaptation_size (es_packet pid u x) = Ok (N.of_nat (length b))).
  { intros b E. unfold get_adaptation_size, es_packet. rewrite E. unfold get. rewrite nth_error_app2 by (rewrite hdr_len; lia). rewrite hdr_len. reflexivity. }
  assert (FL : forall b r, e_af x = Some (b :: r) -> get (es_packet pid u x) 5 = Ok b).
  { intros b r E. unfold es_packet. rewrite E. unfold get. rewrite nth_error_app2 by (rewrite hdr_len; lia). rewrite hdr_len. reflexivity. }
  destruct pcr as [v|]; cbn [filling room] in *.
  - change (layout [(3%nat, 0); (1%nat, 1); (4%nat, 0)]) with [0x10] in *.
    set (q := pcr_bytes (v / 300) 63 (v mod 300)) in *. assert (QL : length q = 6%nat) by (unfold q, pcr_bytes; rewrite P_desc.layout_length by reflexivity; reflexivity).
    assert (EA : e_af x = Some ([0x10] ++ q ++ repeat 255 (176 - length d))) by reflexivity. rewrite EA. cbn [negb].
    rewrite (SZ _ EA). cbn [bind].
    destruct (N.leb_spec 7 (N.of_nat (length ([0x10] ++ q ++ repeat 255 (176 - length d))))) as [_|H]; [|rewrite !app_length, QL in H; cbn [length] in H; lia].
    cbn [negb]. rewrite (FL 0x10 (q ++ repeat 255 (176 - length d))) by exact EA. cbn [bind]. change (negb (N.land 16 16 =? 0)) with true. cbv iota.
    assert (SP : set_pcr (es_packet pid u x) v = Ok (es_packet pid u x)).
    { rewrite set_pcr_spec by lia. apply (f_equal (@Ok _)). unfold es_packet. rewrite EA. cbn [af_bytes]. set (h := ts_header _ _ _ _ _ _ _ _ _). assert (HL : length h = 4%nat) by apply hdr_len. fold q.
      change (h ++ (N.of_nat (length ([16] ++ q ++ repeat 255 (176 - length d))) :: [16] ++ q ++ repeat 255 (176 - length d)) ++ e_data x)
        with (h ++ ([N.of_nat (length ([16] ++ q ++ repeat 255 (176 - length d))); 16] ++ q ++ repeat 255 (176 - length d)) ++ e_data x).
      set (n := N.of_nat _). rewrite <- !app_assoc. rewrite (app_assoc h [n; 16]). rewrite firstn_app. rewrite firstn_all2 by (rewrite app_length, HL; cbn [length]; lia).
      replace (6 - length (h ++ [n; 16%N]))%nat with 0%nat by (rewrite app_length, HL; reflexivity). cbn [firstn]. rewrite app_nil_r. do 2 apply f_equal.
      rewrite (app_assoc (h ++ [n; 16]) q). rewrite skipn_app. rewrite skipn_all2 by (rewrite !app_length, HL, QL; cbn [length]; lia).
      replace (12 - length ((h ++ [n; 16%N]) ++ q))%nat with 0%nat by (rewrite !app_length, HL, QL; reflexivity). reflexivity. }
    pose proof (pcr_roundtrip m (es_packet pid u x) v ltac:(lia) BB V) as R. rewrite SP in R. cbn [bind] in R. rewrite R. reflexivity.
  - destruct (Nat.eqb_spec (length d) 184) as [E|E].
    + assert (EA : e_af x = None) by reflexivity. rewrite EA. reflexivity.
    + destruct (Nat.eqb_spec (length d) 183) as [E3|E3].
      * assert (EA : e_af x = Some []) by reflexivity. rewrite EA. cbn [negb]. rewrite (SZ _ EA). reflexivity.
      * assert (EA : e_af x = Some (0 :: repeat 255 (182 - length d))) by reflexivity.
        rewrite EA. cbn [negb]. rewrite (SZ _ EA). cbn [bind]. destruct (negb (7 <=? _)); [reflexivity|]. rewrite (FL 0 _ EA). reflexivity.
Qed.
Lemma piece_eta pcr c x r : cut_up pcr c (x :: r) -> x = mkPiece 0 c (filling pcr (length (e_data x))) (e_data x).
Proof. intros (H1 & H2 & H3 & _). destruct x as [p cc af d]. cbn [e_prio e_cc e_af e_data] in *. subst. reflexivity. Qed.
Lemma clock_rest m pid l : pid < 8192 -> forall c, Forall piece_ok l -> cut_up None c l -> map (clock_of m) (map (es_packet pid 0) l) = repeat (Ok None) (length l).
Proof.
  intros P. induction l as [|x l IH]; intros c F U; [reflexivity|]. inversion F as [|? ? K F']; subst. cbn [map length repeat]. f_equal; [|exact (IH _ F' ltac:(apply U))].
  rewrite (piece_eta None c x l U). destruct K as (_ & _ & B). destruct U as (_ & _ & _ & U & _). apply (clock_piece m pid 0 c None); [exact B|exact P|exact U|exact I].
Qed.
Lemma clock_unit m pid pcr c l : pid < 8192 -> (match pcr with Some v => v <= PCR_MAX | None => True end) -> l <> [] -> Forall piece_ok l -> cut_up pcr c l ->
  map (clock_of m) (unit_packets pid l) = Ok pcr :: repeat (Ok None) (length l - 1).
Proof.
  intros P V N0 F U. destruct l as [|x l]; [congruence|]. inversion F as [|? ? K F']; subst. cbn [unit_packets map length]. rewrite Nat.sub_succ, Nat.sub_0_r. f_equal; [|exact (clock_rest m pid l P _ F' ltac:(apply U))].
  rewrite (piece_eta pcr c x l U). destruct K as (_ & _ & B). destruct U as (_ & _ & _ & U & _). apply (clock_piece m pid 1 c pcr); assumption.
Qed.
Lemma clock_carried m m' pid c ps pks c' : pid < 8192 -> c < 16 -> Forall (fun x => bytes (snd x) /\ match fst x with Some v => v <= PCR_MAX | None => True end) ps ->
  carry_all m pid c ps = Ok (pks, c') ->
  map (clock_of m') pks = flat_map (fun x => Ok (fst x) :: repeat (Ok None) (packets_for (fst x) (length (snd x)) - 1)) ps.
Proof.
  intros P C F E. destruct (carry_all_ok m pid ps P c C) as (ls & E' & K & U & LN); [eapply Forall_impl; [|exact F]; intros x H; apply H|].
  rewrite E in E'. injection E' as -> _. clear E. revert ls c C K U LN. induction F as [|[pcr d] ps (B & V) F IH]; intros ls c C K U LN.
  - destruct ls; [reflexivity|discriminate LN].
  - destruct ls as [|l ls]; [discriminate LN|]. cbn [map] in K. inversion K as [|? ? ? ? (K1 & K2 & K3) K']; subst. cbn [map combine all_cut] in U. destruct U as (U1 & U2). cbn [map] in LN. injection LN as LN1 LN2.
    cbn [fst snd] in *. cbn [map concat flat_map fst snd]. rewrite map_app. rewrite (clock_unit m' pid pcr c l P V K1 K2 U1), LN1. f_equal.
    refine (IH ls _ _ K' U2 LN2). apply N.mod_lt. discriminate.
Qed.

Lemma fewest pcr x l d : pieces_of (x :: l) d -> (length (e_data x) <= room pcr)%nat -> (packets_for pcr (length d) <= length (x :: l))%nat.
Proof.
  intros (_ & F & E) R. subst d. inversion F as [|? ? _ F']; subst. unfold packets_for. cbn [map concat length]. rewrite app_length.
  assert (H : (length (concat (map e_data l)) <= 184 * length l)%nat).
  { clear -F'. induction F' as [|y l (H & _) F IH]; [cbn; lia|]. cbn [map concat length]. rewrite app_length. lia. }
  dlia.
Qed.

Lemma one_range pid c first pcr d : 8192 <= pid \/ 16 <= c -> carry_one Debug pid c first pcr d = Panic.
Proof.
  intros H. unfold carry_one. destruct (N.ltb_spec pid 8192) as [P|P].
  - rewrite null_eq, set_pid_spec by exact P. cbn [bind]. unfold set_cc, dassert. destruct (N.ltb_spec c 16); [lia|reflexivity].
  - unfold set_pid, dassert. destruct (N.ltb_spec pid 8192); [lia|reflexivity].
Qed.
