(** Combinations of the section lemmas into property shape. *)
From Verif Require Import Prelude Layout Facts Facts2 M_bytes M_ts M_crc M_psi M_drive S_ts S_crc S_psi
  P_bytes P_ts P_crc W_ts P_psi P_mux P_mux2 P_sect P_mux3.

(** ** errors *)
Definition corrupt (p : psi) (e : list N) : psi :=
  with_buffer p (xor_bytes (firstn (p_size p) (p_buffer p)) e ++ skipn (p_size p) (p_buffer p)).

Lemma corrupt_detected p e : bytes (p_buffer p) -> psi_check p = Ok true ->
  bytes e -> length e = p_size p -> crc_run 0 (unpack e) <> 0 -> psi_check (corrupt p e) = Ok false.
Proof.
  intros Hb Hc He Hl Hr. apply psi_check_true in Hc as [[H8 Hle] Hz]; [|assumption].
  set (s := firstn (p_size p) (p_buffer p)) in *.
  assert (Hls : length s = p_size p) by (unfold s; rewrite firstn_length; lia).
  assert (Hbs : bytes s) by (unfold s; apply bytes_firstn; assumption).
  assert (Hlx : length (xor_bytes s e) = p_size p) by (rewrite xor_bytes_length; congruence).
  rewrite psi_check_spec.
  2:{ unfold corrupt. cbn [with_buffer p_buffer]. apply bytes_app. split; [apply xor_bytes_bytes; assumption|apply bytes_skipn; assumption]. }
  unfold corrupt. cbn [with_buffer p_buffer p_size]. fold s.
  rewrite firstn_app, Hlx, Nat.sub_diag, firstn_O, app_nil_r, firstn_all2 by lia.
  pose proof (crc_error_detected s e ltac:(congruence) Hz Hr) as Hn.
  destruct (N.eqb_spec (crc_spec (xor_bytes s e)) 0); [contradiction|]. rewrite andb_false_r. reflexivity.
Qed.

Lemma burst_caught p e w : bytes (p_buffer p) -> psi_check p = Ok true ->
  bytes e -> length e = p_size p -> (w <= 32)%nat -> burst w e -> psi_check (corrupt p e) = Ok false.
Proof. intros. apply corrupt_detected; try assumption. apply (burst_run e w); assumption. Qed.

Lemma few_caught p e : bytes (p_buffer p) -> psi_check p = Ok true ->
  bytes e -> length e = p_size p -> (p_size p <= N.to_nat 4098)%nat -> (1 <= weight e <= 3)%nat ->
  psi_check (corrupt p e) = Ok false.
Proof. intros. apply corrupt_detected; try assumption. apply weight_run; [congruence|assumption]. Qed.

(** ** finalize *)
Lemma finished_nth b i : (3 <= length b)%nat -> (i < length b)%nat -> i <> 1%nat -> i <> 2%nat ->
  nth i (finished b) 0 = nth i b 0.
Proof.
  intros Hl Hi H1 H2. unfold finished.
  destruct b as [|b0 [|b1 [|b2 t]]]; cbn [length] in Hl; try lia.
  set (L := layout _). assert (HL : length L = 2%nat) by reflexivity.
  destruct L as [|x [|y [|z L]]]; cbn [length] in HL; try lia. clear HL.
  cbn [firstn skipn app]. destruct i as [|[|[|i]]]; try lia; [reflexivity|].
  cbn [nth]. rewrite app_nth1 by (cbn [length] in Hi; lia). reflexivity.
Qed.

Lemma finalize_again p : p_size p = length (p_buffer p) -> section_ok (p_buffer p) -> psi_finalize p = Ok p.
Proof.
  intros Hz (Hb & Hl & H8 & Hc).
  set (n := (length (p_buffer p) - 4)%nat).
  pose proof (firstn_skipn n (p_buffer p)) as E.
  assert (Hls : length (skipn n (p_buffer p)) = 4%nat) by (rewrite skipn_length; lia).
  rewrite (finalize_sized p (firstn n (p_buffer p)) (skipn n (p_buffer p))).
  - rewrite <- E in Hc. apply crc_suffix in Hc; [|apply bytes_firstn; assumption|apply bytes_skipn; assumption|assumption].
    rewrite <- Hc. rewrite <- Hls at 1. rewrite to_be_be by (apply bytes_skipn; assumption).
    rewrite E. destruct p; reflexivity.
  - symmetry; exact E.
  - exact Hls.
  - apply bytes_firstn, Hb.
  - rewrite firstn_length. lia.
Qed.

Lemma finalize_prop p : p_size p = 0%nat -> bytes (p_buffer p) ->
  (4 <= length (p_buffer p) <= N.to_nat 4094)%nat ->
  exists p', psi_finalize p = Ok p' /\
    p_size p' = (length (p_buffer p) + 4)%nat /\ length (p_buffer p') = p_size p' /\
    p_pid p' = p_pid p /\ p_cc p' = p_cc p /\
    (forall i, (i < length (p_buffer p))%nat -> i <> 1%nat -> i <> 2%nat -> nth i (p_buffer p') 0 = nth i (p_buffer p) 0) /\
    field (p_buffer p') 8 4 = field (p_buffer p) 8 4 /\
    section_length (p_buffer p') = p_size p' /\
    crc_spec (p_buffer p') = 0 /\ bytes (p_buffer p') /\
    psi_check p' = Ok true /\ psi_finalize p' = Ok p'.
Proof.
  intros Hz Hb Hl. assert (Hl3 : (3 <= length (p_buffer p) <= N.to_nat 4094)%nat) by lia.
  pose proof (finished_ok _ Hb Hl) as Hok. pose proof Hok as (H1 & H2 & H3 & H4).
  pose proof (finished_length (p_buffer p) ltac:(lia)) as Hlen.
  eexists. split; [apply finalize_new; assumption|]. cbn [p_size p_buffer p_pid p_cc].
  split; [reflexivity|]. split; [assumption|]. split; [reflexivity|]. split; [reflexivity|].
  split; [intros; apply finished_nth; assumption || lia|].
  split; [apply finished_field; assumption|]. split; [lia|]. split; [assumption|]. split; [assumption|].
  split.
  - apply (complete_check _ _ Hok); [reflexivity|cbn [p_size]; lia].
  - apply finalize_again; cbn [p_size p_buffer]; [lia|assumption].
Qed.

Lemma finalize_oversize : exists p p', p_size p = 0%nat /\ bytes (p_buffer p) /\ (N.to_nat 4094 < length (p_buffer p))%nat /\
  psi_finalize p = Ok p' /\ psi_check p' = Ok true /\ section_length (p_buffer p') <> p_size p'.
Proof.
  exists (mkPsi (repeat 0 (N.to_nat 4095)) 0 0 0).
  assert (Hb : bytes (repeat 0 (N.to_nat 4095))) by (apply bytes_repeat; lia).
  destruct (psi_finalize (mkPsi (repeat 0 (N.to_nat 4095)) 0 0 0)) as [p'| |] eqn:E; [|vm_compute in E; discriminate|vm_compute in E; discriminate].
  exists p'. split; [reflexivity|]. split; [exact Hb|]. split; [cbn [p_buffer]; rewrite repeat_length; lia|].
  split; [reflexivity|]. vm_compute in E. injection E as <-. split; [vm_compute; reflexivity|].
  intros E. vm_compute in E. discriminate.
Qed.

(** ** packetisation *)
Lemma number_packets_nth pid : forall ps cc first i, cc < 16 -> (i < length ps)%nat ->
  nth i (number_packets pid cc first ps) [] =
  ts_header 0x47 0 (if first && (i =? 0)%nat then 1 else 0) 0 pid 0 0 1 ((cc + N.of_nat i) mod 16) ++ nth i ps [].
Proof.
  induction ps as [|c ps IH]; intros cc first i Hc Hi; [cbn in Hi; lia|].
  destruct i as [|i].
  - cbn [number_packets nth Nat.eqb]. rewrite andb_true_r, N.add_0_r, N.mod_small by assumption. destruct first; reflexivity.
  - cbn [number_packets nth]. rewrite IH by (cbn [length] in Hi; try apply mod_lt_b; lia).
    cbn [andb Nat.eqb]. rewrite andb_false_r. rewrite N.add_mod_idemp_l by lia. do 2 f_equal. f_equal. lia.
Qed.

Lemma number_packets_strip pid : forall ps cc first, map (skipn 4) (number_packets pid cc first ps) = ps.
Proof. induction ps as [|c ps IH]; intros; [reflexivity|]. cbn [number_packets map]. rewrite IH. reflexivity. Qed.

Lemma demux_prop m p dst : p_pid p < 8192 -> p_cc p < 16 -> (0 < p_size p <= length (p_buffer p))%nat ->
  bytes (p_buffer p) ->
  let s := firstn (p_size p) (p_buffer p) in
  exists pk, psi_demux m p dst = Ok (with_cc p ((p_cc p + N.of_nat (length pk)) mod 16), dst ++ concat pk) /\
    length pk = ((p_size p + 1 + 183) / 184)%nat /\
    (forall i, (i < length pk)%nat -> let ts := nth i pk [] in
       length ts = 188%nat /\ is_sync ts = Ok true /\ is_error ts = Ok false /\ get_pid ts = Ok (p_pid p) /\
       is_scrambled ts = Ok false /\ is_adaptation ts = Ok false /\ is_payload ts = Ok true /\
       is_pusi ts = Ok (i =? 0)%nat /\ get_cc ts = Ok ((p_cc p + N.of_nat i) mod 16)) /\
    exists st, (st < 184)%nat /\ concat (map (skipn 4) pk) = 0 :: s ++ repeat 255 st.
Proof.
  intros Hp Hc Hs Hb s.
  assert (Hbs : bytes s) by (apply bytes_firstn, Hb).
  assert (Hls : length s = p_size p) by (unfold s; rewrite firstn_length; lia).
  exists (section_packets (p_pid p) (p_cc p) s).
  assert (Hn : length (section_packets (p_pid p) (p_cc p) s) = ((p_size p + 184) / 184)%nat).
  { rewrite section_packets_length by assumption. rewrite Hls.
    replace (p_size p + 184)%nat with (p_size p + 1 * 184)%nat by lia. rewrite Nat.div_add by discriminate. lia. }
  split; [rewrite Hn; apply psi_demux_spec; assumption|].
  split; [rewrite Hn; f_equal; lia|].
  destruct (section_chunks s Hbs) as (c & ps & st & Ec & Hps & Hbc & Hlc & Ecat & Hst & Hlen).
  assert (Hall : Forall (fun c => bytes c /\ length c = 184%nat) (chop 184 (pad184 (0 :: s)))).
  { rewrite Ec. constructor; [|assumption]. split; [apply bytes_cons; split; [lia|assumption]|cbn [length]; lia]. }
  split.
  - intros i Hi. cbv zeta. unfold section_packets in *.
    assert (Hi' : (i < length (chop 184 (pad184 (0%N :: s))))%nat).
    { rewrite number_packets_k, map_length in Hi.
      rewrite <- (number_k_payload (p_pid p) _ (p_cc p) true), map_length. exact Hi. }
    rewrite number_packets_nth by assumption. cbn [andb].
    pose proof (proj1 (Forall_forall _ _) Hall _ (nth_In _ [] Hi')) as [Hbi Hli].
    pose proof (getters_of_table 71 0 (if (i =? 0)%nat then 1 else 0) 0 (p_pid p) 0 0 1 ((p_cc p + N.of_nat i) mod 16) _ Hbi) as G.
    cbv zeta in G. rewrite (N.mod_small (p_pid p)), (N.mod_small (_ mod 16)) in G by (assumption || (apply mod_lt_b; lia)).
    destruct G as (G1 & G2 & G3 & G4 & G5 & G6 & G7 & G8).
    rewrite app_length, Hli. repeat split; try assumption.
    rewrite G3. destruct (i =? 0)%nat; reflexivity.
  - exists ((184 - length (0%N :: s) mod 184) mod 184)%nat. split; [apply Nat.mod_upper_bound; discriminate|].
    unfold section_packets. rewrite number_packets_strip, chop_concat by lia. reflexivity.
Qed.

Lemma demux_empty_bad m : exists p dst p' out, psi_demux m p dst = Ok (p', dst ++ out) /\ p_size p = 0%nat /\
  length out = 188%nat /\ is_sync out = Ok false.
Proof.
  exists psi_default, [], psi_default, (repeat 255 188). split; [|repeat split].
  apply (psi_demux_empty m psi_default []). reflexivity.
Qed.

(** ** mux after demux *)
Lemma mux_demux m q p dst s extra : section_ok s -> p_buffer q = s ++ extra -> p_size q = length s ->
  p_pid q < 8192 -> p_cc q < 16 ->
  exists pk q', psi_demux m q dst = Ok (q', dst ++ concat pk) /\ Forall (fun ts => length ts = 188%nat) pk /\
    (exists p', mux_all m p pk = Ok p' /\ p_buffer p' = s /\ p_size p' = length s /\ p_pid p' = p_pid p /\
       psi_check p' = Ok true) /\
    (forall n, (1 <= n < length pk)%nat -> exists p', mux_all m p (firstn n pk) = Ok p' /\ psi_check p' = Ok false).
Proof.
  intros Hs Eb Hz Hp Hc. pose proof Hs as (Hb & Hl & H8 & _).
  assert (Hle : (0 < p_size q <= length (p_buffer q))%nat) by (rewrite Eb, app_length; lia).
  pose proof (psi_demux_spec m q dst Hp Hc Hle) as Hd. cbv zeta in Hd.
  assert (Ef : firstn (p_size q) (p_buffer q) = s).
  { rewrite Eb, Hz, firstn_app, firstn_all, Nat.sub_diag, firstn_O, app_nil_r. reflexivity. }
  rewrite Ef in Hd.
  exists (section_packets (p_pid q) (p_cc q) s). eexists. split; [exact Hd|].
  destruct (mux_section m p (p_pid q) (p_cc q) s Hs Hc) as [H1 H2].
  split; [|split; [|exact H2]].
  - destruct (section_chunks s Hb) as (c & ps & st & Ec & Hps & Hbc & Hlc & Ecat & Hst & Hlen).
    unfold section_packets. rewrite Ec, number_packets_k.
    assert (Hall : Forall (fun c => bytes c /\ length c = 184%nat) ((0 :: c) :: ps)).
    { constructor; [|assumption]. split; [apply bytes_cons; split; [lia|assumption]|cbn [length]; lia]. }
    clear - Hall. revert Hall. generalize (p_cc q) true ((0 :: c) :: ps). intros cc first l H. revert cc first.
    induction H as [|x l [_ Hx] _ IH]; intros; [constructor|]. cbn [number_k map]. constructor; [|apply IH].
    unfold encode. cbn [k_sync k_tei k_pusi k_prio k_pid k_tsc k_haspl k_cc k_af k_payload af_bytes app].
    rewrite app_length, Hx. reflexivity.
  - eexists. split; [exact H1|]. cbn [p_buffer p_size p_pid]. repeat split.
    apply (complete_check _ s Hs); reflexivity.
Qed.

(** ** legal packetisations *)
Definition consistent (p : psi) : Prop :=
  bytes (p_buffer p) /\
  ((p_size p = 0%nat /\ (length (p_buffer p) < 3)%nat) \/
   ((3 <= length (p_buffer p))%nat /\ p_size p = section_length (p_buffer p))).

Definition may_start (p : psi) (k : packet) (skipped : list N) : Prop :=
  skipped = [] \/
  (p_cc p < 16 /\ ((consistent p /\ p_buffer p = []) \/ k_cc k <> (p_cc p + 1) mod 16)).

Lemma legal_complete m p pre k0 ks sk c1 s st :
  Forall (fun k => packet_ok k /\ k_haspl k = false) pre ->
  packet_ok k0 -> k_haspl k0 = true -> k_pusi k0 = true ->
  k_payload k0 = N.of_nat (length sk) :: sk ++ c1 -> (length sk < 183)%nat ->
  may_start p k0 sk -> continues (k_cc k0) ks ->
  match filter k_haspl ks with [] => True | k :: _ => (3 <= length c1 + length (k_payload k))%nat end ->
  section_ok s -> c1 ++ carried ks = s ++ st ->
  mux_all m p (map encode (pre ++ k0 :: ks)) = Ok (mkPsi s (length s) (p_pid p) (last_cc (k_cc k0) ks)) /\
  psi_check (mkPsi s (length s) (p_pid p) (last_cc (k_cc k0) ks)) = Ok true.
Proof.
  intros H1 H2 H3 H4 H5 H6 H7 H8 H9 Hs E. 
  destruct (mux_legal m p pre k0 ks sk c1 H1 H2 H3 H4 H5 H6) as (p' & H & Hh & Hc & Hp & _); try assumption.
  { destruct H7 as [H7|[H7 H7']]; [left; exact H7|right; split; [lia|exact H7']]. }
  rewrite H, E in *. destruct (holds_section _ _ _ Hs Hh) as [Eb Ez].
  split; [destruct p'; cbn in *; subst; reflexivity|]. apply (complete_check _ s Hs); reflexivity.
Qed.

Lemma legal_partial m p pre k0 ks sk c1 r :
  Forall (fun k => packet_ok k /\ k_haspl k = false) pre ->
  packet_ok k0 -> k_haspl k0 = true -> k_pusi k0 = true ->
  k_payload k0 = N.of_nat (length sk) :: sk ++ c1 -> (length sk < 183)%nat ->
  may_start p k0 sk -> continues (k_cc k0) ks ->
  match filter k_haspl ks with [] => True | k :: _ => (3 <= length c1 + length (k_payload k))%nat end ->
  section_ok ((c1 ++ carried ks) ++ r) -> r <> [] ->
  exists p', mux_all m p (map encode (pre ++ k0 :: ks)) = Ok p' /\ psi_check p' = Ok false.
Proof.
  intros H1 H2 H3 H4 H5 H6 H7 H8 H9 Hs Hr. 
  destruct (mux_legal m p pre k0 ks sk c1 H1 H2 H3 H4 H5 H6) as (p' & H & Hh & Hc & Hp & _); try assumption.
  { destruct H7 as [H7|[H7 H7']]; [left; exact H7|right; split; [lia|exact H7']]. }
  exists p'. split; [exact H|]. exact (holds_partial _ _ _ Hs Hr Hh).
Qed.

(** packet with a given payload, filled up by an adaptation field *)
Definition fill_packet (pusi : bool) (cc : N) (pay : list N) : packet :=
  mkPacket 0x47 0 pusi 0 256 0 true cc (Some (repeat 255 (183 - length pay))) pay.

Lemma small_chunks_lost : exists s k0 ks, section_ok s /\ packet_ok k0 /\ k_haspl k0 = true /\ k_pusi k0 = true /\
  (exists c1, k_payload k0 = 0 :: c1 /\ c1 <> [] /\ c1 ++ carried ks = s) /\ continues (k_cc k0) ks /\
  forall m, exists p', mux_all m psi_default (map encode (k0 :: ks)) = Ok p' /\ psi_check p' = Ok false.
Proof.
  set (s := finished [0x42; 0xF0; 0; 1; 2; 3; 4; 5]).
  exists s, (fill_packet true 1 [0; nth 0 s 0]), [fill_packet false 2 [nth 1 s 0]; fill_packet false 3 (skipn 2 s)].
  assert (Hok : forall k, length (encode k) = 188%nat -> k_cc k <? 16 = true -> bytesb (k_payload k) = true -> bytesb (af_bytes (k_af k)) = true -> packet_ok k).
  { intros k A1 A2 A3 A4. split; [assumption|]. split; [apply N.ltb_lt; assumption|]. split; apply bytesb_iff; assumption. }
  split.
  { apply finished_ok; [apply bytesb_iff; reflexivity|cbn; lia]. }
  split; [apply Hok; vm_compute; reflexivity|]. split; [reflexivity|]. split; [reflexivity|].
  split; [eexists; split; [reflexivity|]; split; [discriminate|vm_compute; reflexivity]|].
  split.
  - cbn [continues]. split; [apply Hok; vm_compute; reflexivity|]. cbn. split; [reflexivity|]. split; [discriminate|].
    split; [reflexivity|]. split; [apply Hok; vm_compute; reflexivity|]. split; [reflexivity|].
    split; [vm_compute; discriminate|]. split; [reflexivity|exact I].
  - intros m. eexists. split; destruct m; vm_compute; reflexivity.
Qed.

(** ** loss *)
Lemma restart m p1 p2 k c : packet_ok k -> k_haspl k = true -> k_pusi k = true -> k_payload k = 0 :: c ->
  exists q, psi_mux m p1 (encode k) = Ok (with_pid q (p_pid p1)) /\ psi_mux m p2 (encode k) = Ok (with_pid q (p_pid p2)) /\
    p_cc q = k_cc k.
Proof.
  intros Hk Hpl Hpu Hpay.
  assert (Hb : bytes c). { destruct Hk as (_ & _ & Hb & _). rewrite Hpay in Hb. apply bytes_cons in Hb. apply Hb. }
  exists (started p1 (k_cc k) c). rewrite !mux_encode by assumption. rewrite Hpl, Hpu, Hpay.
  pose proof (mux_start m p1 (k_cc k) [] c Hb ltac:(cbn; lia) (or_introl eq_refl)) as E1.
  pose proof (mux_start m p2 (k_cc k) [] c Hb ltac:(cbn; lia) (or_introl eq_refl)) as E2.
  cbn [length app] in E1, E2. change (N.of_nat 0) with 0 in *. rewrite E1, E2.
  split; [|split].
  - f_equal. destruct (started_holds p1 (k_cc k) c) as (_ & _ & <-). destruct (started p1 (k_cc k) c); reflexivity.
  - f_equal. unfold started, trunc_nz, pushed, psi_clear, with_cc, with_pid, with_buffer. cbn [p_buffer p_size p_pid p_cc app].
    destruct (negb _ && _); reflexivity.
  - apply started_holds.
Qed.

Lemma orphan : exists k p', packet_ok k /\ k_haspl k = true /\ k_pusi k = false /\
  (forall m, psi_mux m psi_default (encode k) = Ok p') /\ psi_check p' = Ok true.
Proof.
  set (s := finished [0x42; 0xF0; 0; 1; 2; 3; 4; 5]).
  exists (mkPacket 0x47 0 false 0 256 0 true 1 None (s ++ repeat 0 172)).
  exists (mkPsi s 12 0 1).
  split. { repeat split; try (apply bytesb_iff; vm_compute; reflexivity). }
  split; [reflexivity|]. split; [reflexivity|].
  split; [intros []; vm_compute; reflexivity|vm_compute; reflexivity].
Qed.

(** a long section one packet of which is lost; its content is then taken for a section *)
Definition inner_section : list N := finished [0x42; 0xF0; 0; 1; 2; 3; 4; 5].
Definition outer_section : list N :=
  finished ([0x50; 0xF0; 0] ++ repeat 0 (N.to_nat 3124) ++ inner_section ++ repeat 0 (N.to_nat 200)).

Lemma gap_false_section : exists s i, section_ok s /\ (0 < i < length (section_packets 18 5 s))%nat /\
  forall m, exists n p', mux_all m psi_default (firstn n (firstn i (section_packets 18 5 s) ++ skipn (S i) (section_packets 18 5 s))) = Ok p' /\
    psi_check p' = Ok true /\ p_buffer p' <> s.
Proof.
  exists outer_section, 1%nat. split.
  { unfold outer_section. apply finished_ok.
    - apply bytesb_iff. vm_compute. reflexivity.
    - rewrite !app_length, !repeat_length. change (length inner_section) with 12%nat. cbn [length]. lia. }
  split; [split; [lia|apply Nat.ltb_lt; vm_compute; reflexivity]|].
  intros m. exists 17%nat.
  destruct (mux_all m psi_default (firstn 17 (firstn 1 (section_packets 18 5 outer_section) ++ skipn 2 (section_packets 18 5 outer_section)))) as [p'| |] eqn:E.
  - exists p'. split; [reflexivity|]. destruct m; vm_compute in E; injection E as <-; split; try (vm_compute; reflexivity);
      intros C; apply (f_equal (@length N)) in C; vm_compute in C; discriminate.
  - destruct m; vm_compute in E; discriminate.
  - destruct m; vm_compute in E; discriminate.
Qed.

(** ** equality *)
Lemma eq_complete a b : bytes (p_buffer a) -> bytes (p_buffer b) ->
  (4 <= p_size a <= length (p_buffer a))%nat -> (4 <= p_size b <= length (p_buffer b))%nat ->
  exists r, psi_eq a b = Ok r /\
    (r = true <-> p_size a = p_size b /\
       firstn 4 (skipn (p_size a - 4) (p_buffer a)) = firstn 4 (skipn (p_size b - 4) (p_buffer b))).
Proof.
  intros Ha Hb La Lb. rewrite psi_eq_spec by assumption.
  destruct (Nat.eqb_spec (p_size a) (p_size b)) as [E|E].
  - destruct (Nat.leb_spec 4 (p_size a)), (Nat.leb_spec (p_size a) (length (p_buffer a))), (Nat.leb_spec (p_size b) (length (p_buffer b))); try lia.
    cbn [andb]. eexists. split; [reflexivity|]. fold (stored_crc a) (stored_crc b).
    destruct (N.eqb_spec (be (stored_crc a)) (be (stored_crc b))) as [E2|E2].
    + split; [intros _; split; [assumption|]|reflexivity]. apply be_inj; try assumption.
      * apply bytes_firstn, bytes_skipn, Ha.
      * apply bytes_firstn, bytes_skipn, Hb.
      * unfold stored_crc. rewrite !firstn_length, !skipn_length. lia.
    + split; [discriminate|]. intros [_ C]. rewrite C in E2. congruence.
  - eexists. split; [reflexivity|]. split; [discriminate|]. intros [C _]. congruence.
Qed.

Lemma eq_same p : bytes (p_buffer p) -> (4 <= p_size p <= length (p_buffer p))%nat -> psi_eq p p = Ok true.
Proof.
  intros Hb Hl. destruct (eq_complete p p Hb Hb Hl Hl) as (r & E & H). rewrite E. f_equal. apply H. auto.
Qed.

Lemma eq_collision : exists a b, section_ok (p_buffer a) /\ section_ok (p_buffer b) /\
  p_size a = length (p_buffer a) /\ p_size b = length (p_buffer b) /\
  p_buffer a <> p_buffer b /\ psi_eq a b = Ok true.
Proof.
  exists (mkPsi (finished [0x42; 0xF0; 0; 0; 0; 0; 0; 0]) 12 0 0), (mkPsi (finished [0x42; 0xF0; 0; 0x01; 0x04; 0xC1; 0x1D; 0xB7]) 12 0 0).
  split; [apply finished_ok; [apply bytesb_iff; reflexivity|cbn; lia]|].
  split; [apply finished_ok; [apply bytesb_iff; reflexivity|cbn; lia]|].
  split; [reflexivity|]. split; [reflexivity|]. split; [vm_compute; discriminate|]. vm_compute. reflexivity.
Qed.

Lemma eq_fresh : psi_eq psi_default psi_default = Panic.
Proof. reflexivity. Qed.

Lemma eq_panic a b : bytes (p_buffer a) -> bytes (p_buffer b) ->
  (psi_eq a b = Panic <-> p_size a = p_size b /\
    (p_size a < 4 \/ length (p_buffer a) < p_size a \/ length (p_buffer b) < p_size a)%nat).
Proof.
  intros Ha Hb. rewrite psi_eq_spec by assumption.
  destruct (Nat.eqb_spec (p_size a) (p_size b)) as [E|E].
  - rewrite <- E. destruct (Nat.leb_spec 4 (p_size a)), (Nat.leb_spec (p_size a) (length (p_buffer a))), (Nat.leb_spec (p_size a) (length (p_buffer b)));
      cbn [andb]; split; intros H'; try discriminate; try lia; auto.
  - split; [discriminate|]. intros [C _]. congruence.
Qed.

(** ** memory and invariant *)
Lemma memory_bound m l p' : Forall (fun ts => length ts = 188%nat /\ bytes ts /\ ~ nz_pointer ts) l ->
  mux_all m psi_default l = Ok p' -> (length (p_buffer p') <= N.to_nat 4098)%nat.
Proof.
  intros Hl E. apply Bnd_le. apply (mux_all_bnd m l psi_default p' Hl); [|exact E].
  split; [apply Inv_InvB, Inv_default|]. left. reflexivity.
Qed.

Lemma reachable_inv m l p' : Forall (fun ts => length ts = 188%nat /\ bytes ts) l ->
  mux_all m psi_default l = Ok p' -> consistent p' /\ p_cc p' < 16 /\ p_pid p' = 0.
Proof.
  intros Hl E. split; [|split].
  - apply Inv_InvB. exact (mux_all_inv m l _ _ Hl Inv_default E).
  - apply (mux_all_inv m l _ _ Hl Inv_default E).
  - assert (G : forall l p p', Forall (fun ts => length ts = 188%nat /\ bytes ts) l -> mux_all m p l = Ok p' -> p_pid p' = p_pid p).
    { clear. induction l as [|ts l IH]; intros p p' Hl E; [injection E as <-; reflexivity|].
      inversion Hl as [|? ? [H1 H2] Hl']; subst. cbn [mux_all] in E. apply bind_inv in E as (q & Eq & E).
      rewrite (IH _ _ Hl' E). clear - H1 H2 Eq. revert Eq. rewrite psi_mux_eq by assumption.
      destruct (flag ts 27); [|intros E; injection E as <-; reflexivity].
      intros E. apply bind_inv in E as (off & _ & E). destruct (188 <=? N.to_nat off)%nat; [injection E as <-; reflexivity|].
      revert E. unfold mux_payload. destruct (skipn (N.to_nat off) ts) as [|b t]; [intros E; injection E as <-; reflexivity|].
      assert (Hpush : forall p t q, psi_push p t = Ok q -> p_pid q = p_pid p).
      { intros p0 t0 q0. unfold psi_push. destruct (_ && _); [|intros E; injection E as <-; reflexivity].
        intros E. apply bind_inv in E as (v & _ & E). injection E as <-. reflexivity. }
      destruct (flag ts 9).
      - destruct (183 <=? N.to_nat b)%nat; [intros E; injection E as <-; reflexivity|].
        intros E. apply bind_inv in E as (r & _ & E). cbv zeta in E. apply bind_inv in E as (q1 & E1 & E). injection E as <-.
        cbn [with_cc p_pid].
        assert (Hr : p_pid (if r then psi_clear p else p) = p_pid p) by (destruct r; reflexivity).
        destruct (p_buffer (if r then psi_clear p else p)).
        + apply bind_inv in E1 as (pay & _ & E1). apply bind_inv in E1 as (q2 & E2 & E1). injection E1 as <-.
          apply Hpush in E2. unfold trunc_nz. destruct (_ && _); cbn [with_buffer p_pid]; congruence.
        + apply Hpush in E1. rewrite E1. unfold drain. destruct (_ && _); cbn [p_pid]; congruence.
      - intros E. apply bind_inv in E as (r & _ & E). destruct r; [injection E as <-; reflexivity|].
        apply bind_inv in E as (q1 & E1 & E). injection E as <-. apply Hpush in E1. cbn [with_cc p_pid].
        unfold trunc. destruct (_ <? _)%nat; cbn [with_buffer p_pid]; congruence. }
    apply (G l psi_default p' Hl E).
Qed.
