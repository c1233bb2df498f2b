(** Proofs for C106. *)
From Verif Require Import Prelude Layout Facts S_ts S_measure S_restamp S_play S_due M_ts M_pes M_due.
From Verif Require W_ts P_ts P_pes P_play P_restamp P_found Props_ts.

Lemma period_base t : (t mod PERIOD) / 300 = (t / 300) mod 2 ^ 33.
Proof. unfold PERIOD. rewrite N.mod_mul_r by (vm_compute; discriminate). rewrite N.mul_comm, N.div_add by discriminate. rewrite N.div_small by (apply N.mod_lt; discriminate). reflexivity. Qed.
Lemma turns_base t : t / PERIOD = t / 300 / 2 ^ 33.
Proof. unfold PERIOD. rewrite N.div_div by (vm_compute; discriminate). reflexivity. Qed.
Lemma wait_ticks m w : ahead w -> pts_delta m ((fst w mod PERIOD) / 300) (snd w mod 2 ^ 33) = Ok (ticks w).
Proof.
  destruct w as [t p]. cbn [fst snd]. intros [A B]. cbn [fst snd] in A, B. rewrite period_base. unfold ticks. cbn [fst snd]. rewrite turns_base.
  set (a := t / 300) in *. clearbody a. assert (M : forall x, x mod 2 ^ 33 <= PTS_MAX).
  { intros x. change (PTS_MAX) with (2 ^ 33 - 1). pose proof (N.mod_lt x (2 ^ 33) ltac:(discriminate)). lia. }
  destruct (Props_ts.C12_pts_delta m (a mod 2 ^ 33) (p mod 2 ^ 33) (M a) (M p)) as (d & E & _ & D1 & D2). rewrite E. f_equal. clear E M.
  change (2 ^ 33) with 8589934592 in *. pose proof (N.div_mod a 8589934592 ltac:(discriminate)). pose proof (N.div_mod p 8589934592 ltac:(discriminate)).
  pose proof (N.mod_lt a 8589934592 ltac:(discriminate)). pose proof (N.mod_lt p 8589934592 ltac:(discriminate)).
  set (qa := a / 8589934592) in *. set (qp := p / 8589934592) in *. set (ra := a mod 8589934592) in *. set (rp := p mod 8589934592) in *.
  destruct (N.eqb_spec qa qp) as [Q|Q]; [assert (ra <= rp) by nia; rewrite D1 by assumption; lia|].
  assert (qp = qa + 1) by nia. assert (rp < ra) by nia. specialize (D2 H4). lia.
Qed.
Lemma due_waits m pcr_pid pid l : pid < 8192 -> Forall (fun e => length (fst (fst e)) = 188%nat /\ bytes (fst (fst e))) l -> Forall (tick_ok pcr_pid) l -> Forall (start_ok pid) l ->
  forall c, Forall ahead (waits c l) ->
  due m pcr_pid pid (match c with Some t => Some (t mod PERIOD) | None => None end) (map (fun e => fst (fst e)) l) = Ok (map (fun w => ticks w / 90) (waits c l)).
Proof.
  intros P. induction l as [|[[ts t] s] l IH]; intros F T S c A; [reflexivity|]. inversion F as [|? ? [L B] F']; subst. inversion T as [|? ? T1 T']; subst. inversion S as [|? ? S1 S']; subst.
  specialize (IH F' T' S'). cbn [fst snd] in *. cbn [map fst due]. rewrite (P_ts.get_pid_spec ts) by (assumption || lia). cbn [bind].
  set (c' := match t with Some _ => t | None => c end) in *.
  assert (E : (' has <- (if field ts 11 13 =? pcr_pid then is_pcr ts else Ok false) ;;
    (if has : bool then v <- get_pcr m ts ;; Ok (Some v) else Ok (match c with Some t => Some (t mod PERIOD) | None => None end))) = Ok (match c' with Some t => Some (t mod PERIOD) | None => None end)).
  { unfold tick_ok in T1. cbn [fst snd] in T1. destruct t as [t|].
    - destruct T1 as (E1 & E2 & E3). rewrite E1, N.eqb_refl, P_ts.is_pcr_spec by (assumption || lia). cbn [bind]. fold (has_pcr ts). rewrite E2. cbv iota. rewrite P_ts.get_pcr_spec by (assumption || lia). cbn [bind].
      fold (pcr_of ts). rewrite E3. reflexivity.
    - destruct (N.eqb_spec (field ts 11 13) pcr_pid) as [E|E]; [|reflexivity]. destruct T1 as [T1|T1]; [contradiction|]. rewrite P_ts.is_pcr_spec by (assumption || lia). cbn [bind]. fold (has_pcr ts). rewrite T1. reflexivity. }
  destruct (if field ts 11 13 =? pcr_pid then is_pcr ts else Ok false) as [has| |]; try discriminate E. cbn [bind] in E |- *. rewrite E. cbn [bind]. clear E.
  cbn [waits] in A |- *. fold c' in A |- *.
  unfold start_ok in S1. cbn [fst snd] in S1. destruct s as [s|].
  - destruct S1 as (x & r & id & b6 & dts & f6 & rest & data & b & O & K & Pc & Len & ->).
    assert (X : piece_ok x) by (destruct Pc as (_ & Y & _); inversion Y; assumption).
    destruct (P_play.own_getters m pid 1 x X P ltac:(reflexivity)) as (G1 & G2 & G3 & o & G4 & G5). rewrite P_ts.get_pid_spec in G1 by (assumption || lia). injection G1 as G1.
    destruct (P_play.first_packet id b6 (Some (s mod 2 ^ 33)) dts f6 rest data b x r O K Pc Len) as (H1 & H2 & _ & H4 & _).
    rewrite G1, N.eqb_refl, G2. cbn [bind]. rewrite G3. cbn [bind]. change (negb (1 =? 0)) with true.
    destruct c' as [t'|]; [|apply (IH None); exact A]. inversion A as [|? ? A1 A2]; subst. cbv iota. rewrite G4. cbn [bind]. rewrite G5. cbn [bind]. rewrite H1. cbn [bind negb]. rewrite H2. cbn [bind negb].
    rewrite (H4 _ eq_refl). cbn [bind]. pose proof (wait_ticks m (t', s) A1) as W. cbn [fst snd] in W. rewrite W. cbn [bind]. pose proof (IH (Some t') A2) as Y. cbv iota in Y. rewrite Y. reflexivity.
  - assert (E : (' p <- (if field ts 11 13 =? pid then is_payload ts else Ok false) ;; (if p : bool then is_pusi ts else Ok false)) = Ok false).
    { destruct (N.eqb_spec (field ts 11 13) pid) as [E|E]; [|reflexivity]. destruct S1 as [S1|S1]; [contradiction|].
      destruct (W_ts.header_getters ts ltac:(lia) B) as (_ & _ & G3 & _ & _ & _ & G7 & _). rewrite G7. cbn [bind]. destruct (flag ts 27); [|reflexivity]. rewrite G3. destruct S1 as [S1|S1]; [discriminate S1|]. rewrite S1. reflexivity. }
    destruct (if field ts 11 13 =? pid then is_payload ts else Ok false) as [p| |]; try discriminate E. cbn [bind] in E |- *. rewrite E. cbn [bind].
    destruct c' as [t'|]; [apply (IH (Some t'))|apply (IH None)]; exact A.
Qed.
Lemma wait_close w : ahead w -> let r := ticks w / 90 in 27000 * r + fst w < 300 * snd w + 300 /\ 300 * snd w <= fst w + 27000 * (r + 1).
Proof.
  destruct w as [t p]. intros [A B]. cbn [fst snd] in *. unfold ticks. cbn [fst snd]. set (k := if t / PERIOD =? p / 2 ^ 33 then 0 else 1).
  assert (K : k <= 1) by (unfold k; destruct (t / PERIOD =? p / 2 ^ 33); lia).
  assert (K1 : k = 1 -> t / 300 < p).
  { intros E. destruct (N.eq_dec (t / 300) p) as [X|X]; [|lia]. exfalso. unfold k in E. rewrite turns_base, X, N.eqb_refl in E. discriminate E. }
  clearbody k. zify. Z.div_mod_to_equations. lia.
Qed.
