(** Proofs: packets on another PID and with other counters. *)
From Verif Require Import Prelude Layout Facts Facts2 M_bytes M_ts M_crc M_psi M_drive M_recv S_ts S_crc S_psi P_bytes P_ts P_crc W_ts P_psi P_mux S_system
  M_remux S_remux.

Lemma hd_len a b c d e f g h i : length (ts_header a b c d e f g h i) = 4%nat.
Proof. reflexivity. Qed.
Lemma retag_len q pk : length pk = 188%nat -> length (retag q pk) = 188%nat.
Proof. intros H. unfold retag. rewrite app_length, hd_len, skipn_length. lia. Qed.
Lemma recount_len c pk : length pk = 188%nat -> length (recount c pk) = 188%nat.
Proof. intros H. unfold recount. rewrite app_length, hd_len, skipn_length. lia. Qed.
Lemma retag_bytes q pk : bytes pk -> bytes (retag q pk).
Proof. intros H. apply bytes_app. split; [apply layout_bytes|apply bytes_skipn; exact H]. Qed.
Lemma recount_bytes c pk : bytes pk -> bytes (recount c pk).
Proof. intros H. apply bytes_app. split; [apply layout_bytes|apply bytes_skipn; exact H]. Qed.
Lemma behind a b c d e f g h i pk off w : (32 <= off)%nat -> (4 <= length pk)%nat -> field (ts_header a b c d e f g h i ++ skipn 4 pk) off w = field pk off w.
Proof.
  intros H L. replace off with (8 * 4 + (off - 32))%nat by lia. rewrite (field_app_n 4) by apply hd_len.
  rewrite <- (firstn_skipn 4 pk) at 2. rewrite (field_app_n 4); [reflexivity|]. rewrite firstn_length. lia.
Qed.
Lemma flag_field pk off : field pk off 1 mod 2 = field pk off 1.
Proof. apply N.mod_small. apply field_lt. Qed.
Lemma retag_pid q pk : q < 8192 -> field (retag q pk) 11 13 = q.
Proof. intros H. unfold retag. rewrite f_pid. apply N.mod_small. exact H. Qed.
Lemma retag_pl q pk : flag (retag q pk) 27 = flag pk 27.
Proof. unfold flag, retag. rewrite f_pl, flag_field. reflexivity. Qed.
Lemma retag_pusi q pk : flag (retag q pk) 9 = flag pk 9.
Proof. unfold flag, retag. rewrite f_pusi, flag_field. reflexivity. Qed.
Lemma retag_af q pk : flag (retag q pk) 26 = flag pk 26.
Proof. unfold flag, retag. rewrite f_af, flag_field. reflexivity. Qed.
Lemma retag_cc q pk : field (retag q pk) 28 4 = field pk 28 4.
Proof. unfold retag. rewrite f_cc. apply N.mod_small. exact (field_lt pk 28 4). Qed.
Lemma recount_pid c pk : field (recount c pk) 11 13 = field pk 11 13.
Proof. unfold recount. rewrite f_pid. apply N.mod_small. exact (field_lt pk 11 13). Qed.
Lemma recount_pl c pk : flag (recount c pk) 27 = flag pk 27.
Proof. unfold flag, recount. rewrite f_pl, flag_field. reflexivity. Qed.
Lemma recount_pusi c pk : flag (recount c pk) 9 = flag pk 9.
Proof. unfold flag, recount. rewrite f_pusi, flag_field. reflexivity. Qed.
Lemma recount_af c pk : flag (recount c pk) 26 = flag pk 26.
Proof. unfold flag, recount. rewrite f_af, flag_field. reflexivity. Qed.
Lemma recount_cc c pk : c < 16 -> field (recount c pk) 28 4 = c.
Proof. intros H. unfold recount. rewrite f_cc. apply N.mod_small. exact H. Qed.
Lemma skip4 a b c d e f g h i (l : list N) : skipn 4 (ts_header a b c d e f g h i ++ l) = l.
Proof. reflexivity. Qed.
Lemma retag_skip q pk n : (4 <= n)%nat -> (4 <= length pk)%nat -> skipn n (retag q pk) = skipn n pk.
Proof. intros H L. unfold retag. replace n with ((n - 4) + 4)%nat by lia. rewrite <- (skipn_skipn (n - 4) 4 (_ ++ _)), <- (skipn_skipn (n - 4) 4 pk). rewrite skip4. reflexivity. Qed.
Lemma recount_skip q pk n : (4 <= n)%nat -> (4 <= length pk)%nat -> skipn n (recount q pk) = skipn n pk.
Proof. intros H L. unfold recount. replace n with ((n - 4) + 4)%nat by lia. rewrite <- (skipn_skipn (n - 4) 4 (_ ++ _)), <- (skipn_skipn (n - 4) 4 pk). rewrite skip4. reflexivity. Qed.

Lemma retag_sound q pk : sound pk -> sound (retag q pk).
Proof.
  intros (L & B & A). split; [exact (retag_len q pk L)|]. split; [exact (retag_bytes q pk B)|]. rewrite retag_af. unfold retag. rewrite behind by lia. exact A.
Qed.
Lemma recount_sound c pk : sound pk -> sound (recount c pk).
Proof.
  intros (L & B & A). split; [exact (recount_len c pk L)|]. split; [exact (recount_bytes c pk B)|]. rewrite recount_af. unfold recount. rewrite behind by lia. exact A.
Qed.
Lemma sound_offset m pk : sound pk -> get_payload_offset m pk = Ok (payload_at pk) /\ 4 <= payload_at pk.
Proof.
  intros (L & B & A). rewrite (payload_offset_spec m pk) by (assumption || lia). unfold payload_at. destruct (flag pk 26); [|split; [reflexivity|lia]].
  specialize (A eq_refl). destruct (N.leb_spec (field pk 32 8) 250); [|lia]. rewrite N.mod_small by lia. split; [reflexivity|lia].
Qed.
Lemma retag_at q pk : sound pk -> payload_at (retag q pk) = payload_at pk.
Proof. intros (L & _). unfold payload_at. rewrite retag_af. destruct (flag pk 26); [|reflexivity]. unfold retag. rewrite behind by lia. reflexivity. Qed.
Lemma recount_at q pk : sound pk -> payload_at (recount q pk) = payload_at pk.
Proof. intros (L & _). unfold payload_at. rewrite recount_af. destruct (flag pk 26); [|reflexivity]. unfold recount. rewrite behind by lia. reflexivity. Qed.
Lemma mux_sound m p pk : sound pk -> psi_mux m p pk =
  if flag pk 27 then if (188 <=? N.to_nat (payload_at pk))%nat then Ok (psi_clear p) else mux_payload m p (flag pk 9) (field pk 28 4) (skipn (N.to_nat (payload_at pk)) pk)
  else Ok p.
Proof. intros S. destruct (sound_offset m pk S) as [E _]. destruct S as (L & B & A). rewrite (psi_mux_eq m p pk L B), E. reflexivity. Qed.

(** ** another PID *)
Lemma mux_retag m p q pk : sound pk -> psi_mux m p (retag q pk) = psi_mux m p pk.
Proof.
  intros S. rewrite (mux_sound m p _ (retag_sound q pk S)), (mux_sound m p pk S), retag_pl, retag_pusi, retag_cc, (retag_at q pk S).
  destruct (sound_offset m pk S) as [_ G]. rewrite retag_skip by (destruct S; lia). reflexivity.
Qed.
Lemma remap_spec m route l : Forall sound l -> (forall pid q, route pid = Some q -> q < 8192) -> remap m route l = Ok (routed route l).
Proof.
  intros F R. induction F as [|pk l (L & B & A) F IH]; [reflexivity|]. cbn [remap]. unfold routed. cbn [flat_map]. rewrite get_pid_spec by (assumption || lia). cbn [bind].
  fold (routed route l). destruct (route (field pk 11 13)) as [q|] eqn:E; [|exact IH].
  rewrite (ts_header_complete pk) at 1 by (assumption || lia). rewrite set_pid_spec by exact (R _ _ E). cbn [bind]. rewrite IH. reflexivity.
Qed.
Lemma receive_retag {T} m (parse : T -> psi -> res T) q l : Forall sound l -> forall p t, receive m parse p t (map (retag q) l) = receive m parse p t l.
Proof.
  intros F. induction F as [|pk l S F IH]; intros p t; [reflexivity|]. cbn [map receive]. rewrite (mux_retag m p q pk S).
  destruct (psi_mux m p pk) as [p'| |]; [|reflexivity|reflexivity]. cbn [bind]. destruct (parse t p') as [t'| |]; [|reflexivity|reflexivity]. cbn [bind]. apply IH.
Qed.
Lemma routed_on route pid q l : (forall x y, route x = Some y -> y < 8192) -> route pid = Some q -> (forall x, route x = Some q -> x = pid) ->
  filter (on q) (routed route l) = map (retag q) (filter (on pid) l).
Proof.
  intros R E I. induction l as [|pk l IH]; [reflexivity|]. unfold routed in *. cbn [flat_map]. rewrite filter_app, IH. cbn [filter].
  replace (on pid pk) with (field pk 11 13 =? pid) by reflexivity. destruct (N.eqb_spec (field pk 11 13) pid) as [H|H].
  - rewrite H, E. cbn [filter map app]. unfold on at 1. rewrite (retag_pid q pk (R _ _ E)), N.eqb_refl. reflexivity.
  - destruct (route (field pk 11 13)) as [y|] eqn:E2; [|reflexivity]. cbn [filter app]. unfold on at 1. rewrite (retag_pid y pk (R _ _ E2)).
    destruct (N.eqb_spec y q) as [->|]; [elim H; exact (I _ E2)|reflexivity].
Qed.
Lemma remap_table : forall T m m' (parse : T -> psi -> res T) route pid q l p t, Forall sound l -> (forall x y, route x = Some y -> y < 8192) ->
  route pid = Some q -> (forall x, route x = Some q -> x = pid) ->
  exists out, remap m route l = Ok out /\ receive m' parse p t (filter (on q) out) = receive m' parse p t (filter (on pid) l).
Proof.
  intros T m m' parse route pid q l p t F R E I. exists (routed route l). split; [exact (remap_spec m route l F R)|].
  rewrite (routed_on route pid q l R E I). apply receive_retag. apply Forall_forall. intros x H. apply filter_In in H as [H _]. rewrite Forall_forall in F. exact (F x H).
Qed.
Lemma retag_reads m q pk : sound pk -> is_sync (retag q pk) = is_sync pk /\ is_error (retag q pk) = is_error pk /\ is_pusi (retag q pk) = is_pusi pk /\
  is_scrambled (retag q pk) = is_scrambled pk /\ is_payload (retag q pk) = is_payload pk /\ get_cc (retag q pk) = get_cc pk /\
  get_payload_offset m (retag q pk) = get_payload_offset m pk /\ is_pcr (retag q pk) = is_pcr pk /\ get_pcr m (retag q pk) = get_pcr m pk /\
  skipn (N.to_nat (payload_at pk)) (retag q pk) = skipn (N.to_nat (payload_at pk)) pk.
Proof.
  intros S. pose proof (retag_sound q pk S) as S'. destruct (sound_offset m pk S) as [E G]. destruct (sound_offset m _ S') as [E' _]. rewrite (retag_at q pk S) in E'.
  pose proof (retag_at q pk S) as At. destruct S as (L & B & A). destruct S' as (L' & B' & A').
  assert (Bh : forall off w, (32 <= off)%nat -> field (retag q pk) off w = field pk off w) by (intros off w H; apply behind; lia).
  repeat split.
  - rewrite !is_sync_spec by (assumption || lia). unfold retag at 1. rewrite f_sync. rewrite N.mod_small by exact (field_lt pk 0 8). reflexivity.
  - rewrite !is_error_spec by lia. unfold flag, retag. rewrite f_tei, flag_field. reflexivity.
  - rewrite !is_pusi_spec by lia. rewrite retag_pusi. reflexivity.
  - rewrite !is_scrambled_spec by lia. unfold retag. rewrite f_tsc. rewrite N.mod_small by exact (field_lt pk 24 2). reflexivity.
  - rewrite !is_payload_spec by lia. rewrite retag_pl. reflexivity.
  - rewrite !get_cc_spec by (assumption || lia). rewrite retag_cc. reflexivity.
  - rewrite E, E'. reflexivity.
  - rewrite !is_pcr_spec by (assumption || lia). rewrite retag_af, Bh by lia. unfold flag. rewrite (Bh 43%nat) by lia. reflexivity.
  - rewrite !get_pcr_spec by (assumption || lia). rewrite !Bh by lia. reflexivity.
  - apply retag_skip; lia.
Qed.

(** ** other counters *)
Definition renewed (f : N -> N) (p : psi) : psi := with_cc p (f (p_cc p)).
Definition turn {T} (f : N -> N) (r : res (psi * T)) : res (psi * T) := ' (p, t) <- r ;; Ok (renewed f p, t).
Lemma push_renewed f p t : psi_push (renewed f p) t = (q <- psi_push p t ;; Ok (renewed f q)).
Proof.
  unfold psi_push, renewed, with_cc, with_buffer. cbn [p_buffer p_size p_pid p_cc]. destruct (_ && _); [|reflexivity].
  destruct (get_u16_at _ 1); reflexivity.
Qed.
Lemma payload_renewed m f p pusi c pay : cc_breaks m (renewed f p) (f c) = cc_breaks m p c ->
  mux_payload m (renewed f p) pusi (f c) pay = (q <- mux_payload m p pusi c pay ;; Ok (renewed f q)).
Proof.
  intros H. destruct pay as [|b t]; [reflexivity|]. unfold mux_payload. rewrite H. destruct pusi.
  - destruct (183 <=? N.to_nat b)%nat; [reflexivity|]. destruct (if (N.to_nat b =? 0)%nat then Ok true else cc_breaks m p c) as [r| |]; [|reflexivity|reflexivity]. cbn [bind].
    assert (G : forall y, match p_buffer (renewed f y) with [] => pay <- slice_from t (N.to_nat b) ;; p <- psi_push (renewed f y) pay ;; Ok (trunc_nz p) | _ => psi_push (drain (renewed f y)) t end
      = (z <- match p_buffer y with [] => pay <- slice_from t (N.to_nat b) ;; p <- psi_push y pay ;; Ok (trunc_nz p) | _ => psi_push (drain y) t end ;; Ok (renewed f z))).
    { intros y. change (p_buffer (renewed f y)) with (p_buffer y). destruct (p_buffer y) eqn:E.
      - destruct (slice_from t (N.to_nat b)) as [pay| |]; [|reflexivity|reflexivity]. cbn [bind]. rewrite push_renewed. destruct (psi_push y pay) as [z| |]; [|reflexivity|reflexivity]. cbn [bind].
        unfold trunc_nz. change (p_size (renewed f z)) with (p_size z). change (p_buffer (renewed f z)) with (p_buffer z). destruct (_ && _); reflexivity.
      - replace (drain (renewed f y)) with (renewed f (drain y)); [apply push_renewed|]. unfold drain. change (p_size (renewed f y)) with (p_size y). change (p_buffer (renewed f y)) with (p_buffer y). destruct (_ && _); reflexivity. }
    replace (if r then psi_clear (renewed f p) else renewed f p) with (renewed f (if r then psi_clear p else p)) by (destruct r; reflexivity).
    rewrite G. set (p1 := if r then psi_clear p else p). destruct (match p_buffer p1 with [] => _ | _ => _ end) as [z| |]; reflexivity.
  - destruct (cc_breaks m p c) as [r| |]; [|reflexivity|reflexivity]. cbn [bind]. destruct r; [reflexivity|]. rewrite push_renewed.
    destruct (psi_push p (b :: t)) as [z| |]; [|reflexivity|reflexivity]. cbn [bind]. unfold trunc. change (p_size (renewed f z)) with (p_size z). change (p_buffer (renewed f z)) with (p_buffer z). destruct (_ <? _)%nat; reflexivity.
Qed.

Definition shift (d c : N) : N := (c + d) mod 16.
Lemma shift_lt d c : shift d c < 16.
Proof. apply N.mod_lt. discriminate. Qed.
Lemma breaks_shift m d p c : p_cc p < 16 -> c < 16 -> cc_breaks m (renewed (shift d) p) (shift d c) = cc_breaks m p c.
Proof.
  intros Hp Hc. rewrite !cc_breaks_eq; [|left; lia|left; cbn [renewed with_cc p_cc]; pose proof (shift_lt d (p_cc p)); lia]. cbn [renewed with_cc p_cc]. do 2 f_equal.
  unfold shift. clear m. destruct (N.eqb_spec c ((p_cc p + 1) mod 16)) as [E|E]; [apply N.eqb_eq; subst c; dlia|apply N.eqb_neq; intros G; apply E; dlia].
Qed.
Lemma payload_counter m p pusi c pay q : p_cc p < 16 -> c < 16 -> mux_payload m p pusi c pay = Ok q -> p_cc q < 16.
Proof.
  intros Hp Hc. destruct pay as [|b t]; [intros E; injection E as <-; exact Hp|]. unfold mux_payload. destruct pusi.
  - destruct (183 <=? N.to_nat b)%nat; [intros E; injection E as <-; exact Hp|]. destruct (if (N.to_nat b =? 0)%nat then Ok true else cc_breaks m p c) as [r| |]; cbn [bind]; try discriminate.
    destruct (match p_buffer _ with [] => _ | _ => _ end) as [z| |]; cbn [bind]; try discriminate. intros E. injection E as <-. exact Hc.
  - destruct (cc_breaks m p c) as [r| |]; cbn [bind]; try discriminate. destruct r; [intros E; injection E as <-; exact Hp|].
    destruct (psi_push p (b :: t)) as [z| |]; cbn [bind]; try discriminate. intros E. injection E as <-. exact Hc.
Qed.
Lemma mux_counter m p pk q : sound pk -> p_cc p < 16 -> psi_mux m p pk = Ok q -> p_cc q < 16.
Proof.
  intros S Hp. rewrite (mux_sound m p pk S). destruct (flag pk 27); [|intros E; injection E as <-; exact Hp].
  destruct (188 <=? _)%nat; [intros E; injection E as <-; exact Hp|]. apply payload_counter; [exact Hp|exact (field_lt pk 28 4)].
Qed.
Lemma mux_shift m d p pk : sound pk -> p_cc p < 16 ->
  psi_mux m (renewed (shift d) p) (recount (shift d (field pk 28 4)) pk) = (q <- psi_mux m p pk ;; Ok (renewed (shift d) q)).
Proof.
  intros S Hp. rewrite (mux_sound m _ _ (recount_sound _ pk S)), (mux_sound m p pk S), recount_pl, recount_pusi, (recount_cc _ pk (shift_lt _ _)), (recount_at _ pk S).
  destruct (sound_offset m pk S) as [_ G]. rewrite recount_skip by (destruct S; lia). destruct (flag pk 27); [|reflexivity].
  destruct (188 <=? _)%nat; [reflexivity|]. apply payload_renewed. apply breaks_shift; [exact Hp|exact (field_lt pk 28 4)].
Qed.
Lemma mux_idle m p c pk : sound pk -> flag pk 27 = false -> psi_mux m p (recount c pk) = Ok p.
Proof. intros S E. rewrite (mux_sound m _ _ (recount_sound c pk S)), recount_pl, E. reflexivity. Qed.

Definition blind {T} (parse : T -> psi -> res T) : Prop := forall t p c, parse t (with_cc p c) = parse t p.
Lemma receive_shift {T} m (parse : T -> psi -> res T) d l : blind parse -> Forall sound l -> forall p t, p_cc p < 16 ->
  receive m parse (renewed (shift d) p) t (map (fun pk => recount (shift d (field pk 28 4)) pk) l) = turn (shift d) (receive m parse p t l).
Proof.
  intros Bl F. induction F as [|pk l S F IH]; intros p t Hp; [reflexivity|]. cbn [map receive]. rewrite (mux_shift m d p pk S Hp).
  pose proof (mux_counter m p pk) as Hc. destruct (psi_mux m p pk) as [q| |]; [|reflexivity|reflexivity]. cbn [bind].
  unfold renewed at 1. rewrite Bl. destruct (parse t q) as [u| |]; [|reflexivity|reflexivity]. cbn [bind]. apply IH. exact (Hc q S Hp eq_refl).
Qed.

(** counted anew *)
Fixpoint renumbered (c : N) (l : list (list N)) : list (list N) :=
  match l with
  | [] => []
  | pk :: l' => let c' := if flag pk 27 then (c + 1) mod 16 else c in recount c' pk :: renumbered c' l'
  end.
Lemma renumber_spec m l : Forall sound l -> forall c, c < 16 -> renumber m c l = Ok (renumbered c l).
Proof.
  intros F. induction F as [|pk l (L & B & A) F IH]; intros c Hc; [reflexivity|]. cbn [renumber renumbered]. rewrite is_payload_spec by lia. cbn [bind].
  set (c' := if flag pk 27 then (c + 1) mod 16 else c). assert (Hc' : c' < 16) by (unfold c'; destruct (flag pk 27); [apply N.mod_lt; discriminate|exact Hc]).
  replace (if flag pk 27 then c0 <- addw U8 m c 1 ;; Ok (N.land c0 0x0F) else Ok c) with (Ok c').
  2:{ unfold c'. destruct (flag pk 27); [|reflexivity]. unfold addw, U8. destruct (N.ltb_spec (c + 1) 256); [|lia]. cbn [bind]. change 0x0F with (N.ones 4). rewrite N.land_ones. reflexivity. }
  cbn [bind]. rewrite (ts_header_complete pk) at 1 by (assumption || lia). rewrite set_cc_spec by exact Hc'. cbn [bind]. rewrite IH by exact Hc'. reflexivity.
Qed.
Lemma renumbered_unbroken l : forall c, unbroken c (renumbered c l).
Proof.
  induction l as [|pk l IH]; intros c; [exact I|]. cbn [renumbered unbroken]. rewrite recount_pl. destruct (flag pk 27) eqn:E; [|apply IH].
  rewrite recount_cc by (apply N.mod_lt; discriminate). split; [reflexivity|apply IH].
Qed.
Lemma receive_renumbered {T} m (parse : T -> psi -> res T) d l : blind parse -> Forall sound l -> forall cc p t, unbroken cc l -> cc < 16 -> p_cc p < 16 ->
  receive m parse (renewed (shift d) p) t (renumbered (shift d cc) l) = turn (shift d) (receive m parse p t l).
Proof.
  intros Bl F. induction F as [|pk l S F IH]; intros cc p t U Hcc Hp; [reflexivity|]. cbn [renumbered receive unbroken] in *. destruct (flag pk 27) eqn:Pl.
  - destruct U as [U1 U2]. assert (E : (shift d cc + 1) mod 16 = shift d (field pk 28 4)) by (rewrite U1; unfold shift; clear; dlia). rewrite E.
    rewrite (mux_shift m d p pk S Hp). pose proof (mux_counter m p pk) as Hc. destruct (psi_mux m p pk) as [q| |]; [|reflexivity|reflexivity]. cbn [bind].
    unfold renewed at 1. rewrite Bl. destruct (parse t q) as [u| |]; [|reflexivity|reflexivity]. cbn [bind]. apply IH; [exact U2|exact (field_lt pk 28 4)|exact (Hc q S Hp eq_refl)].
  - rewrite (mux_idle m _ _ pk S Pl). rewrite (mux_sound m p pk S), Pl. cbn [bind]. unfold renewed at 1. rewrite Bl.
    destruct (parse t p) as [u| |]; [|reflexivity|reflexivity]. cbn [bind]. apply IH; assumption.
Qed.
(** a section starts: what the receiver had before does not matter *)
Lemma payload_opens m p x c t : mux_payload m (with_cc p x) true c (0 :: t) = mux_payload m p true c (0 :: t).
Proof.
  unfold mux_payload. change (183 <=? N.to_nat 0)%nat with false. change (N.to_nat 0 =? 0)%nat with true. cbv iota. cbn [bind].
  change (p_buffer (psi_clear (with_cc p x))) with (@nil N). change (p_buffer (psi_clear p)) with (@nil N). cbv iota.
  destruct (slice_from t (N.to_nat 0)) as [pay| |]; [|reflexivity|reflexivity]. cbn [bind].
  change (psi_clear (with_cc p x)) with (renewed (fun _ => x) (psi_clear p)). rewrite push_renewed. destruct (psi_push (psi_clear p) pay) as [z| |]; [|reflexivity|reflexivity].
  cbn [bind]. unfold trunc_nz. change (p_size (renewed _ z)) with (p_size z). change (p_buffer (renewed _ z)) with (p_buffer z). destruct (_ && _); reflexivity.
Qed.
Lemma opens_payload pk : sound pk -> opens pk -> exists t, skipn (N.to_nat (payload_at pk)) pk = 0 :: t.
Proof.
  intros (L & _) (_ & _ & H & E). revert E. generalize (N.to_nat (payload_at pk)). clear. induction pk as [|x pk IH]; intros [|n] E; try discriminate; [injection E as ->; eexists; reflexivity|].
  exact (IH n E).
Qed.
Lemma mux_opens m p d pk : sound pk -> opens pk -> psi_mux m p (recount (shift d (field pk 28 4)) pk) = (q <- psi_mux m p pk ;; Ok (renewed (shift d) q)) /\
  forall q, psi_mux m p pk = Ok q -> p_cc q < 16.
Proof.
  intros S O. pose proof (opens_payload pk S O) as [t Et]. pose proof O as (P1 & P2 & P3 & _).
  assert (X : forall y c, sound y -> flag y 27 = true -> flag y 9 = true -> payload_at y = payload_at pk -> field y 28 4 = c -> skipn (N.to_nat (payload_at pk)) y = 0 :: t ->
    forall z, psi_mux m p y = psi_mux m (with_cc p z) y).
  { intros y c Sy Y1 Y2 Y3 Y4 Y5 z. rewrite !(mux_sound m _ y Sy), Y1, Y2, Y3, Y4, Y5. destruct (188 <=? _)%nat eqn:E; [apply Nat.leb_le in E; lia|]. rewrite payload_opens. reflexivity. }
  pose proof (X pk _ S P1 P2 eq_refl eq_refl Et) as X1. split.
  - rewrite (X (recount (shift d (field pk 28 4)) pk) _ (recount_sound _ pk S) ltac:(rewrite recount_pl; exact P1) ltac:(rewrite recount_pusi; exact P2) (recount_at _ pk S) eq_refl
      ltac:(rewrite recount_skip by (destruct (sound_offset m pk S), S; lia); exact Et) (shift d 0)).
    rewrite (X1 0). exact (mux_shift m d (with_cc p 0) pk S ltac:(cbn; lia)).
  - intros q E. rewrite (X1 0) in E. exact (mux_counter m (with_cc p 0) pk q S ltac:(cbn; lia) E).
Qed.
Definition outcome {T} (a b : res (psi * T)) : Prop :=
  match a with
  | Ok (q, u) => exists q', b = Ok (q', u) /\ p_buffer q' = p_buffer q /\ p_size q' = p_size q
  | Panic => b = Panic
  | Hang => b = Hang
  end.
Lemma outcome_turn {T} f (a : res (psi * T)) : outcome a (turn f a).
Proof. destruct a as [[q u]| |]; [|reflexivity|reflexivity]. exists (renewed f q). repeat split. Qed.
Lemma renumbered_same l : forall c, Forall2 (fun a b => exists c, b = recount c a) l (renumbered c l).
Proof. induction l as [|pk l IH]; intros c; [constructor|]. constructor; [eexists; reflexivity|apply IH]. Qed.
Lemma renumber_any : forall T m m' (parse : T -> psi -> res T) pk l c p t, blind parse -> Forall sound (pk :: l) -> opens pk -> unbroken (field pk 28 4) l -> c < 16 ->
  exists out, renumber m c (pk :: l) = Ok out /\ unbroken c out /\ Forall2 (fun a b => exists c, b = recount c a) (pk :: l) out /\
    outcome (receive m' parse p t (pk :: l)) (receive m' parse p t out).
Proof.
  intros T m m' parse pk l c p t Bl F O U Hc. exists (renumbered c (pk :: l)). split; [apply renumber_spec; assumption|]. split; [apply renumbered_unbroken|]. split; [apply renumbered_same|].
  set (f := field pk 28 4) in *. assert (Hf : f < 16) by exact (field_lt pk 28 4). set (d := c + 17 - f).
  assert (E : (c + 1) mod 16 = shift d f) by (unfold shift, d; clear - Hf; clearbody f; dlia).
  inversion F as [|? ? S F']; subst. cbn [renumbered]. rewrite (proj1 O). rewrite E. cbn [receive]. destruct (mux_opens m' p d pk S O) as [M C]. fold f in M. rewrite M.
  destruct (psi_mux m' p pk) as [q| |]; [|reflexivity|reflexivity]. cbn [bind]. unfold renewed at 1. rewrite Bl. destruct (parse t q) as [u| |]; [|reflexivity|reflexivity]. cbn [bind].
  rewrite (receive_renumbered m' parse d l Bl F' f q u U Hf (C q eq_refl)). apply outcome_turn.
Qed.
Lemma shift_any : forall T m (parse : T -> psi -> res T) d p t l, blind parse -> Forall sound l -> p_cc p < 16 ->
  outcome (receive m parse p t l) (receive m parse (with_cc p ((p_cc p + d) mod 16)) t (map (fun pk => recount ((field pk 28 4 + d) mod 16) pk) l)).
Proof.
  intros T m parse d p t l Bl F Hp. pose proof (receive_shift m parse d l Bl F p t Hp) as H. unfold renewed, shift in H. rewrite H. apply outcome_turn.
Qed.
