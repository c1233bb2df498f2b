(** Proofs about the readers. *)
From Verif Require Import Prelude Layout Facts M_ts M_reader S_reader P_ts P_psi.

Definition no_fail (l : list event) : Prop := Forall (fun e => match e with Fail _ => False | _ => True end) l.

(** what one call of the underlying reader does *)
Lemma src_read_cases s n : (0 < n)%nat ->
  (exists j l' u, src_read s n = (mkSource (skipn j (s_data s)) l', inl (firstn j (s_data s))) /\
     (0 < j <= n)%nat /\ s_sched s = u ++ l' /\ no_fail u) \/
  (exists e l', src_read s n = (mkSource (s_data s) l', inr e) /\ s_sched s = Fail e :: l').
Proof.
  intros Hn. unfold src_read. destruct (s_sched s) as [|[k|e] l].
  - left. exists n, [], []. split; [reflexivity|]. split; [lia|]. split; [reflexivity|constructor].
  - left. exists (Nat.min n (S k)), l, [Chunk k]. split; [reflexivity|]. split; [lia|]. split; [reflexivity|].
    repeat constructor.
  - right. exists e, l. split; reflexivity.
Qed.

(** the part of the schedule that was used *)
Definition used (r : option io) (s s' : list event) : Prop :=
  exists u, no_fail u /\ s = u ++ match r with Some (IoErr e) => Fail e :: s' | _ => s' end.

Lemma used_cons r u s s' : no_fail u -> used r s s' -> used r (u ++ s) s'.
Proof. intros Hu (v & Hv & ->). exists (u ++ v). split; [apply Forall_app; auto|]. rewrite app_assoc. reflexivity. Qed.

Lemma to_sync_app junk l : ~ In 0x47 junk -> to_sync (junk ++ l) = to_sync l.
Proof.
  induction junk as [|b junk IH]; intros H; [reflexivity|]. cbn [app to_sync].
  destruct (N.eqb_spec b 0x47) as [E|E]; [exfalso; apply H; left; assumption|].
  apply IH. intros H'. apply H. right. assumption.
Qed.
Lemma to_sync_hit l : to_sync (0x47 :: l) = 0x47 :: l.
Proof. reflexivity. Qed.
Lemma to_sync_none junk : ~ In 0x47 junk -> to_sync junk = [].
Proof. intros H. rewrite <- (app_nil_r junk). rewrite to_sync_app by assumption. reflexivity. Qed.
Lemma to_sync_split l : exists junk, l = junk ++ to_sync l /\ ~ In 0x47 junk /\
  (to_sync l = [] \/ hd 0 (to_sync l) = 0x47).
Proof.
  induction l as [|b l IH]; [exists []; cbn; auto|]. cbn [to_sync].
  destruct (N.eqb_spec b 0x47) as [->|E]; [exists []; cbn; auto|].
  destruct IH as (junk & Hl & Hj & Hs). exists (b :: junk). cbn [app]. split; [congruence|]. split; [|assumption].
  intros [H|H]; [congruence|contradiction].
Qed.

(** first loop *)
Lemma hunt_spec : forall fuel s packet, (length (s_data s) < fuel)%nat -> (1 <= length packet)%nat ->
  exists s' packet' r, hunt fuel s packet = Ok (s', packet', r) /\
    length packet' = length packet /\ skipn 1 packet' = skipn 1 packet /\ used r (s_sched s) (s_sched s') /\
    match r with
    | None => exists junk, s_data s = junk ++ 0x47 :: s_data s' /\ ~ In 0x47 junk /\ hd 0 packet' = 0x47
    | Some (IoOk n) => n = 0%nat /\ s_data s' = [] /\ ~ In 0x47 (s_data s)
    | Some (IoErr e) => exists junk, s_data s = junk ++ s_data s' /\ ~ In 0x47 junk
    end.
Proof.
  induction fuel as [|fuel IH]; intros s packet Hf Hl; [lia|].
  destruct packet as [|p0 packet]; [cbn in Hl; lia|].
  cbn [hunt]. unfold read_at. cbn [Nat.leb].
  change (1 <=? length (p0 :: packet))%nat with true. cbn [andb]. change (1 - 0)%nat with 1%nat.
  destruct (src_read_cases s 1 ltac:(lia)) as [(j & l' & u & E & Hj & Hu & Hn)|(e & l' & E & Hs)]; rewrite E.
  - assert (j = 1%nat) as -> by lia. destruct (s_data s) as [|b t] eqn:Ed.
    + cbn [firstn skipn length app Nat.add bind]. eexists _, _, _. split; [reflexivity|].
      cbn [s_sched s_data]. split; [reflexivity|]. split; [reflexivity|]. split; [exists u; auto|]. auto.
    + cbn [firstn skipn length app Nat.add bind].
      replace (is_sync (b :: packet)) with (Ok (b =? 0x47)) by reflexivity. cbn [bind].
      destruct (N.eqb_spec b 0x47) as [->|Eb].
      * eexists _, _, _. split; [reflexivity|]. cbn [s_sched s_data hd].
        split; [reflexivity|]. split; [reflexivity|]. split; [exists u; auto|]. exists []. auto.
      * destruct (IH (mkSource t l') (b :: packet)) as (s' & packet' & r & E' & H1 & H2 & H4 & H6);
          [cbn [length s_data] in *; lia|cbn [length] in *; lia|].
        exists s', packet', r. split; [exact E'|]. cbn [length skipn] in *. split; [assumption|]. split; [assumption|].
        cbn [s_sched s_data] in *. split; [rewrite Hu; apply used_cons; assumption|].
        destruct r as [[n|e]|].
        -- destruct H6 as (-> & H6 & H7). split; [reflexivity|]. split; [assumption|]. intros [C|C]; [congruence|contradiction].
        -- destruct H6 as (junk & H8 & H9).
           exists (b :: junk). cbn [app]. split; [congruence|]. intros [C|C]; [congruence|contradiction].
        -- destruct H6 as (junk & H6 & H7 & H8). exists (b :: junk). cbn [app]. split; [congruence|]. split; [|assumption].
           intros [C|C]; [congruence|contradiction].
  - cbn [bind]. eexists _, _, _. split; [reflexivity|]. cbn [s_sched s_data]. split; [reflexivity|]. split; [reflexivity|].
    split; [exists []; split; [constructor|exact Hs]|]. exists []. auto.
Qed.

(** second loop *)
Lemma fill_spec : forall fuel s packet skip, (188 < skip + fuel)%nat -> (skip <= 188 <= length packet)%nat ->
  exists s' packet' r, fill fuel s packet skip = Ok (s', packet', r) /\
    length packet' = length packet /\ skipn 188 packet' = skipn 188 packet /\ firstn skip packet' = firstn skip packet /\
    used r (s_sched s) (s_sched s') /\
    match r with
    | None => exists d, s_data s = d ++ s_data s' /\ firstn 188 packet' = firstn skip packet ++ d
    | Some (IoOk n) => n = 0%nat /\ s_data s' = [] /\ (skip + length (s_data s) < 188)%nat
    | Some (IoErr e) => exists d, s_data s = d ++ s_data s' /\ (skip + length d < 188)%nat
    end.
Proof.
  induction fuel as [|fuel IH]; intros s packet skip Hf Hl; [lia|].
  cbn [fill]. destruct (Nat.eqb_spec skip 188) as [->|Hne].
  - eexists _, _, _. split; [reflexivity|]. split; [reflexivity|]. split; [reflexivity|]. split; [reflexivity|].
    split; [exists []; split; [constructor|reflexivity]|]. exists []. split; [reflexivity|]. rewrite app_nil_r. reflexivity.
  - unfold read_at. destruct (Nat.leb_spec skip 188); [|lia]. destruct (Nat.leb_spec 188 (length packet)); [|lia]. cbn [andb].
    destruct (src_read_cases s (188 - skip) ltac:(lia)) as [(j & l' & u & E & Hj & Hu & Hn)|(e & l' & E & Hs)]; rewrite E.
    + set (d := firstn j (s_data s)).
      assert (Hd : (length d <= j)%nat) by (unfold d; rewrite firstn_length; lia).
      set (packet1 := firstn skip packet ++ d ++ skipn (skip + length d) packet).
      assert (Hfl : length (firstn skip packet) = skip) by (rewrite firstn_length; lia).
      assert (Hp1 : length packet1 = length packet).
      { unfold packet1. rewrite !app_length, Hfl, skipn_length. lia. }
      assert (Hp2 : skipn 188 packet1 = skipn 188 packet).
      { unfold packet1. rewrite app_assoc, skipn_app, app_length, Hfl.
        rewrite skipn_all2 by (rewrite app_length; lia). cbn [app]. rewrite skipn_skipn. f_equal. lia. }
      assert (Hp3 : firstn skip packet1 = firstn skip packet).
      { unfold packet1. rewrite firstn_app, Hfl, Nat.sub_diag, firstn_O, app_nil_r.         rewrite firstn_firstn, Nat.min_id. reflexivity. }
      assert (Hp4 : firstn (skip + length d) packet1 = firstn skip packet ++ d).
      { unfold packet1. rewrite app_assoc, firstn_app, app_length, Hfl, Nat.sub_diag, firstn_O, app_nil_r.
        apply firstn_all2. rewrite app_length. lia. }
      cbn [bind]. destruct (length d) as [|n] eqn:Eld.
      * eexists _, _, _. split; [reflexivity|]. cbn [s_sched s_data]. split; [assumption|]. split; [assumption|]. split; [assumption|].
        split; [exists u; auto|]. split; [reflexivity|].
        assert (Hdata : s_data s = []).
        { unfold d in Eld. rewrite firstn_length in Eld. destruct (s_data s); [reflexivity|]. cbn [length] in Eld. lia. }
        rewrite Hdata, skipn_nil. cbn [length]. split; [reflexivity|lia].
      * rewrite <- Eld in *. 
        destruct (IH (mkSource (skipn j (s_data s)) l') packet1 (skip + length d)%nat) as (s' & packet' & r & E' & H1 & H2 & H3 & H4 & H6);
          [lia|lia|].
        exists s', packet', r. split; [exact E'|]. split; [congruence|]. split; [congruence|].
        split.
        { assert (G : firstn skip (firstn (skip + length d) packet') = firstn skip (firstn (skip + length d) packet1)) by congruence.
          rewrite !firstn_firstn, !Nat.min_l in G by lia. congruence. }
        cbn [s_sched s_data] in *. split; [rewrite Hu; apply used_cons; assumption|].
        assert (Ed : s_data s = d ++ skipn j (s_data s)) by (unfold d; rewrite firstn_skipn; reflexivity).
        destruct r as [[n0|e]|].
        -- destruct H6 as (-> & H6 & H7). split; [reflexivity|]. split; [assumption|]. rewrite Ed, app_length. lia.
        -- destruct H6 as (d2 & H6 & H7). exists (d ++ d2). rewrite <- app_assoc, <- H6. split; [exact Ed|].
           rewrite app_length. lia.
        -- destruct H6 as (d2 & H6 & H7). exists (d ++ d2). rewrite <- app_assoc, <- H6. split; [exact Ed|].
           rewrite H7, Hp4, app_assoc. reflexivity.
    + cbn [bind]. eexists _, _, _. split; [reflexivity|]. cbn [s_sched s_data].
      split; [reflexivity|]. split; [reflexivity|]. split; [reflexivity|].
      split; [exists []; split; [constructor|exact Hs]|]. exists []. cbn [length]. split; [reflexivity|lia].
Qed.

(** one call, whatever the schedule *)
Lemma ts_read_spec s packet : (188 <= length packet)%nat ->
  exists s' packet' r, ts_read s packet = Ok (s', packet', r) /\
    length packet' = length packet /\ skipn 188 packet' = skipn 188 packet /\
    used (Some r) (s_sched s) (s_sched s') /\
    match r with
    | IoOk n =>
      (n = 188%nat /\ exists junk pk, s_data s = junk ++ pk ++ s_data s' /\ ~ In 0x47 junk /\ hd 0 pk = 0x47 /\
         length pk = 188%nat /\ packet' = pk ++ skipn 188 packet) \/
      (n = 0%nat /\ s_data s' = [] /\ (length (to_sync (s_data s)) < 188)%nat)
    | IoErr e => exists junk part, s_data s = junk ++ part ++ s_data s' /\ ~ In 0x47 junk /\
         (part = [] \/ (hd 0 part = 0x47 /\ (length part < 188)%nat))
    end.
Proof.
  intros Hl. unfold ts_read. destruct (Nat.leb_spec 188 (length packet)); [|lia].
  destruct (hunt_spec (S (length (s_data s))) s packet ltac:(lia) ltac:(lia)) as (s1 & p1 & r1 & E1 & L1 & K1 & U1 & R1).
  rewrite E1. cbn [bind].
  assert (K188 : skipn 188 p1 = skipn 188 packet).
  { change 188%nat with (187 + 1)%nat. rewrite <- !skipn_skipn, K1. reflexivity. }
  destruct r1 as [r1|].
  - exists s1, p1, r1. split; [reflexivity|]. split; [assumption|]. split; [assumption|]. split; [assumption|].
    destruct r1 as [n|e].
    + right. destruct R1 as (-> & H1 & H2). split; [reflexivity|]. split; [assumption|].
      rewrite to_sync_none by assumption. cbn. lia.
    + destruct R1 as (junk & H1 & H2). exists junk, []. cbn [app]. auto.
  - destruct R1 as (junk & D1 & J1 & P1).
    destruct (fill_spec 189 s1 p1 1 ltac:(lia) ltac:(lia)) as (s2 & p2 & r2 & E2 & L2 & K2 & F2 & U2 & R2).
    rewrite E2. cbn [bind].
    assert (U : forall r, used r (s_sched s1) (s_sched s2) -> used r (s_sched s) (s_sched s2)).
    { intros r Hr. destruct U1 as (u & Hu & E). rewrite E. apply used_cons; assumption. }
    assert (F1 : firstn 1 p1 = [0x47]).
    { destruct p1 as [|x p1]; [cbn in *; lia|]. cbn in *. congruence. }
    destruct r2 as [r2|].
    + exists s2, p2, r2. split; [reflexivity|]. split; [congruence|]. split; [congruence|]. split; [apply U; assumption|].
      destruct r2 as [n|e].
      * right. destruct R2 as (-> & H1 & H2). split; [reflexivity|]. split; [assumption|].
        rewrite D1, to_sync_app, to_sync_hit by assumption. cbn [length]. lia.
      * destruct R2 as (d & H1 & H2). exists junk, (0x47 :: d). split; [rewrite D1, H1; reflexivity|]. split; [assumption|].
        right. split; [reflexivity|]. cbn [length]. lia.
    + destruct R2 as (d & H1 & H2). rewrite F1 in H2.
      assert (Hp2 : p2 = (0x47 :: d) ++ skipn 188 packet).
      { rewrite <- (firstn_skipn 188 p2), H2, K2, K188. reflexivity. }
      assert (Hd : length (0x47 :: d) = 188%nat).
      { assert (G : length (firstn 188 p2) = 188%nat) by (rewrite firstn_length; lia). rewrite H2 in G. exact G. }
      assert (Hg : exists v, get_pid p2 = Ok v).
      { destruct p2 as [|a [|b [|c p2]]]; cbn [length] in L2; try lia. eexists. reflexivity. }
      destruct Hg as [v ->]. cbn [bind].
      exists s2, p2, (IoOk 188). split; [reflexivity|]. split; [congruence|]. split; [congruence|]. split; [apply U; assumption|].
      left. split; [reflexivity|]. exists junk, (0x47 :: d). split; [rewrite D1, H1; reflexivity|]. auto.
Qed.

(** ** reading without errors *)
Lemma ts_read_ok s packet : (188 <= length packet)%nat -> no_fail (s_sched s) ->
  exists s' packet', no_fail (s_sched s') /\ length packet' = length packet /\ skipn 188 packet' = skipn 188 packet /\
    if (length (to_sync (s_data s)) <? 188)%nat
    then ts_read s packet = Ok (s', packet', IoOk 0) /\ s_data s' = []
    else ts_read s packet = Ok (s', packet', IoOk 188) /\ s_data s' = skipn 188 (to_sync (s_data s)) /\
         firstn 188 packet' = firstn 188 (to_sync (s_data s)).
Proof.
  intros Hl Hn. destruct (ts_read_spec s packet Hl) as (s' & p' & r & E & H1 & H2 & (u & Hu & HU) & H3).
  exists s', p'.
  assert (Hn' : no_fail (s_sched s')).
  { rewrite HU in Hn. apply Forall_app in Hn as [_ Hn]. destruct r; [assumption|]. inversion Hn; contradiction. }
  split; [assumption|]. split; [assumption|]. split; [assumption|].
  destruct r as [n|e].
  - destruct H3 as [(-> & junk & pk & D & J & P & L & Ep)|(-> & D & L)].
    + assert (Hs : to_sync (s_data s) = pk ++ s_data s').
      { rewrite D, to_sync_app by assumption. destruct pk as [|x pk]; [discriminate|]. cbn in P. subst x. reflexivity. }
      rewrite Hs, app_length. destruct (Nat.ltb_spec (length pk + length (s_data s')) 188); [lia|].
      split; [exact E|]. rewrite <- L. rewrite skipn_app, skipn_all, Nat.sub_diag, firstn_app, firstn_all, Nat.sub_diag, firstn_O, app_nil_r.
      split; [reflexivity|]. rewrite Ep, firstn_app, firstn_all, Nat.sub_diag, firstn_O, app_nil_r. reflexivity.
    + destruct (Nat.ltb_spec (length (to_sync (s_data s))) 188); [|lia]. auto.
  - exfalso. rewrite HU in Hn. apply Forall_app in Hn as [_ Hn]. inversion Hn. contradiction.
Qed.

Lemma in_stream_fun l pks1 : in_stream l pks1 -> forall pks2, in_stream l pks2 -> pks1 = pks2.
Proof.
  induction 1 as [l Hl|l pk l' pks E Hl H IH]; intros pks2 H2; inversion H2 as [? Hl2|? pk2 l2 p2 E2 Hl2 Hs2]; subst.
  - reflexivity.
  - rewrite E2, app_length in Hl. lia.
  - rewrite E, app_length in Hl2. lia.
  - assert (G : firstn 188 (pk ++ l') = firstn 188 (pk2 ++ l2)) by congruence.
    rewrite <- Hl in G at 1. rewrite <- Hl2 in G at 1.
    rewrite !firstn_app, !firstn_all, !Nat.sub_diag, !firstn_O, !app_nil_r in G. subst pk2.
    f_equal. apply IH. replace l' with l2; [assumption|]. apply (app_inv_head pk). congruence.
Qed.

Lemma in_stream_total l : exists pks, in_stream l pks.
Proof.
  assert (G : forall n l, (length l <= n)%nat -> exists pks, in_stream l pks).
  { clear l. induction n as [|n IH]; intros l Hn.
    - destruct l; [|cbn in Hn; lia]. exists []. constructor. cbn. lia.
    - destruct (Nat.ltb_spec (length (to_sync l)) 188) as [H|H]; [exists []; constructor; assumption|].
      destruct (IH (skipn 188 (to_sync l))) as [pks Hp].
      { rewrite skipn_length. destruct (to_sync_split l) as (junk & E & _ & _).
        assert (length l = length junk + length (to_sync l))%nat by (rewrite E at 1; apply app_length). lia. }
      exists (firstn 188 (to_sync l) :: pks). econstructor; [symmetry; apply firstn_skipn| |exact Hp].
      rewrite firstn_length. lia. }
  apply (G (length l)). lia.
Qed.

Lemma read_all_spec pks : forall l s packet n, in_stream l pks -> s_data s = l -> no_fail (s_sched s) ->
  (188 <= length packet)%nat ->
  exists s', read_all n s packet = Ok (firstn n pks, s') /\
    ((length pks < n)%nat -> s_data s' = []) /\ no_fail (s_sched s').
Proof.
  induction pks as [|pk pks IH]; intros l s packet n Hs Hd Hn Hl.
  - destruct n as [|n]; [exists s; repeat split; [lia|assumption]|].
    inversion Hs as [? Hlt|]; subst. cbn [read_all].
    destruct (ts_read_ok s packet Hl Hn) as (s' & p' & Hn' & L & K & H).
    destruct (Nat.ltb_spec (length (to_sync (s_data s))) 188); [|lia]. destruct H as [-> H]. cbn [bind].
    exists s'. auto.
  - destruct n as [|n]; [exists s; repeat split; [cbn; lia|assumption]|].
    inversion Hs as [|? ? l' ? E Hlp Hs']; subst. cbn [read_all firstn].
    destruct (ts_read_ok s packet Hl Hn) as (s' & p' & Hn' & L & K & H).
    rewrite E, app_length in H. destruct (Nat.ltb_spec (length pk + length l') 188); [lia|].
    destruct H as (-> & HD & HP). cbn [bind]. rewrite <- Hlp in HD at 1. rewrite <- Hlp in HP at 2.
    rewrite skipn_app, skipn_all, Nat.sub_diag in HD. cbn [app skipn] in HD.
    rewrite firstn_app, firstn_all, Nat.sub_diag, firstn_O, app_nil_r in HP.
    destruct (IH l' s' p' n Hs' HD Hn' ltac:(lia)) as (s2 & -> & H2 & H3). cbn [bind].
    exists s2. rewrite HP. split; [reflexivity|]. split; [intros; apply H2; cbn [length] in *; lia|assumption].
Qed.

(** ** aligned streams *)
Lemma aligned_stream junk pks tail : ~ In 0x47 junk ->
  Forall (fun pk => length pk = 188%nat /\ hd 0 pk = 0x47) pks -> (length (to_sync tail) < 188)%nat ->
  in_stream (junk ++ concat pks ++ tail) pks.
Proof.
  intros Hj Hp Ht. revert junk Hj. induction Hp as [|pk pks [Hl Hh] _ IH]; intros junk Hj.
  - cbn [concat app]. constructor. rewrite to_sync_app by assumption. assumption.
  - cbn [concat]. rewrite <- app_assoc. econstructor; [|exact Hl|exact (IH [] (fun F => F))].
    rewrite to_sync_app by assumption. destruct pk as [|x pk]; [discriminate|]. cbn in Hh. subst x. reflexivity.
Qed.

(** ** TsDrain *)
(** [R s pks]: the inner reader in state [s] will deliver exactly [pks] *)
Definition delivers {S} (tsread : S -> list N -> res (S * list N * io)) (R : S -> list (list N) -> Prop) : Prop :=
  forall s pks buf, R s pks -> (188 <= length buf)%nat ->
    exists s' buf', length buf' = length buf /\
      match pks with
      | [] => tsread s buf = Ok (s', buf', IoOk 0) /\ R s' []
      | pk :: pks' => tsread s buf = Ok (s', buf', IoOk 188) /\ firstn 188 buf' = pk /\ R s' pks'
      end.

(** what is still to come *)
Definition pending {S} (R : S -> list (list N) -> Prop) (d : drain S) (rest : list N) : Prop :=
  length (d_buf d) = 188%nat /\ (d_pos d < 188)%nat /\
  exists pks, R (d_inner d) pks /\
    rest = (if (d_pos d =? 0)%nat then [] else skipn (d_pos d) (d_buf d)) ++ concat pks.

Lemma drain_copy_spec {S} (R : S -> list (list N) -> Prop) (d : drain S) pks buf : R (d_inner d) pks -> length (d_buf d) = 188%nat -> (d_pos d < 188)%nat ->
  buf <> [] -> exists d' buf' n, drain_copy d buf = Ok (d', buf', IoOk n) /\ length buf' = length buf /\
    (0 < n <= length buf)%nat /\ skipn n buf' = skipn n buf /\
    exists rest', skipn (d_pos d) (d_buf d) ++ concat pks = firstn n buf' ++ rest' /\ pending R d' rest'.
Proof.
  intros HR Hb Hp Hne. unfold drain_copy, slice_from.
  destruct (Nat.leb_spec (d_pos d) (length (d_buf d))); [|lia]. cbn [bind].
  set (t := skipn (d_pos d) (d_buf d)). assert (Ht : length t = (188 - d_pos d)%nat) by (unfold t; rewrite skipn_length; lia).
  set (x := Nat.min (length t) (length buf)).
  assert (Hbl : (0 < length buf)%nat) by (destruct buf; [congruence|cbn; lia]).
  assert (Hx : (0 < x <= length buf)%nat) by lia.
  assert (Hf : length (firstn x t) = x) by (rewrite firstn_length; lia).
  assert (E1 : firstn x (firstn x t ++ skipn x buf) = firstn x t).
  { rewrite firstn_app, Hf, Nat.sub_diag, firstn_O, app_nil_r. apply firstn_all2. lia. }
  eexists _, _, x. split; [reflexivity|]. split; [rewrite app_length, Hf, skipn_length; lia|]. split; [assumption|].
  split; [rewrite skipn_app, Hf, Nat.sub_diag, skipn_all2 by lia; reflexivity|].
  rewrite E1. exists (skipn x t ++ concat pks).
  split; [rewrite app_assoc, firstn_skipn; reflexivity|].
  unfold pending. cbn [d_inner d_buf d_pos]. split; [assumption|]. split; [apply Nat.mod_upper_bound; lia|].
  exists pks. split; [assumption|]. f_equal.
  destruct (Nat.eqb_spec x (length t)) as [E|E].
  - rewrite (skipn_all2 t) by lia. replace ((d_pos d + x) mod 188)%nat with 0%nat; [reflexivity|].
    replace (d_pos d + x)%nat with 188%nat by lia. reflexivity.
  - rewrite Nat.mod_small by lia. destruct (Nat.eqb_spec (d_pos d + x) 0); [lia|].
    unfold t. rewrite skipn_skipn. f_equal. lia.
Qed.

Lemma drain_read_spec {S} tsread R (d : drain S) rest buf : delivers tsread R -> pending R d rest -> buf <> [] ->
  exists d' buf' n, drain_read tsread d buf = Ok (d', buf', IoOk n) /\ length buf' = length buf /\ (n <= length buf)%nat /\
    (n = 0%nat -> rest = []) /\
    exists rest', rest = firstn n buf' ++ rest' /\ pending R d' rest'.
Proof.
  intros HD (Hb & Hp & pks & HR & ->) Hne. unfold drain_read. destruct (Nat.eqb_spec (d_pos d) 0) as [E0|E0].
  - cbn [app]. destruct (Nat.leb_spec 188 (length buf)) as [Hl|Hl].
    + destruct (HD _ _ buf HR Hl) as (s' & buf' & L & H). destruct pks as [|pk pks].
      * destruct H as [-> H]. cbn [bind]. eexists _, _, 0%nat. split; [reflexivity|]. split; [assumption|]. split; [lia|].
        split; [reflexivity|]. exists []. split; [reflexivity|].
        split; [assumption|]. split; [assumption|]. exists []. cbn [d_inner d_pos]. rewrite E0. auto.
      * destruct H as (-> & F & H). cbn [bind]. eexists _, _, 188%nat. split; [reflexivity|]. split; [assumption|]. split; [lia|].
        split; [discriminate|]. exists (concat pks). split; [cbn [concat]; rewrite F; reflexivity|].
        split; [assumption|]. split; [assumption|]. exists pks. cbn [d_inner d_pos]. rewrite E0. auto.
    + destruct (HD _ _ (d_buf d) HR ltac:(lia)) as (s' & b' & L & H). destruct pks as [|pk pks].
      * destruct H as [-> H]. cbn [bind]. eexists _, _, 0%nat. split; [reflexivity|]. split; [reflexivity|]. split; [lia|].
        split; [reflexivity|]. exists []. split; [reflexivity|].
        split; [cbn; congruence|]. split; [cbn; assumption|]. exists []. cbn [d_inner d_pos]. rewrite E0. auto.
      * destruct H as (-> & F & H). cbn [bind].
        destruct (drain_copy_spec R (mkDrain s' b' (d_pos d)) pks buf H) as (d' & buf' & n & E & L' & Hn & _ & rest' & Er & HP);
          [cbn; congruence|assumption|assumption|].
        exists d', buf', n. split; [exact E|]. split; [assumption|]. split; [lia|]. split; [lia|].
        exists rest'. split; [|assumption]. rewrite <- Er. cbn [d_pos d_buf concat]. rewrite E0, skipn_O. f_equal.
        rewrite <- F. apply firstn_all2. lia.
  - destruct (drain_copy_spec R d pks buf HR Hb Hp Hne) as (d' & buf' & n & E & L' & Hn & _ & rest' & Er & HP).
    exists d', buf', n. split; [exact E|]. split; [assumption|]. split; [lia|]. split; [lia|]. exists rest'. auto.
Qed.

Lemma drain_all_spec {S} tsread R (bufs : list (list N)) : delivers tsread R -> Forall (fun b => b <> []) bufs ->
  forall (d : drain S) rest, pending R d rest ->
  exists chunks rest' d', drain_all tsread d bufs = Ok (chunks, d') /\ length chunks = length bufs /\
    rest = concat chunks ++ rest' /\ pending R d' rest' /\ (rest' <> [] -> Forall (fun c => c <> []) chunks).
Proof.
  intros HD Hb. induction Hb as [|b bufs Hb _ IH]; intros d rest HP.
  - exists [], rest, d. split; [reflexivity|]. split; [reflexivity|]. split; [reflexivity|]. split; [assumption|]. constructor.
  - cbn [drain_all]. destruct (drain_read_spec tsread R d rest b HD HP Hb) as (d1 & b1 & n & -> & L & Hn & H0 & rest1 & E & HP1).
    cbn [bind]. destruct (IH d1 rest1 HP1) as (cs & rest2 & d2 & -> & L2 & E2 & HP2 & Hc). cbn [bind].
    eexists _, rest2, d2. split; [reflexivity|]. split; [cbn [length]; congruence|].
    split; [cbn [concat]; rewrite <- app_assoc, <- E2; assumption|]. split; [assumption|].
    intros Hr. constructor; [|auto]. destruct n as [|n].
    + rewrite H0 in E by reflexivity. cbn in E. subst rest1. destruct rest2; [congruence|].
      destruct (concat cs); discriminate.
    + destruct b1; [cbn [length] in L; destruct b; [congruence|discriminate]|discriminate].
Qed.

Definition reader_pending (s : source) (pks : list (list N)) : Prop := no_fail (s_sched s) /\ in_stream (s_data s) pks.

Lemma reader_delivers : delivers ts_read reader_pending.
Proof.
  intros s pks buf [Hn Hs] Hl. destruct (ts_read_ok s buf Hl Hn) as (s' & p' & Hn' & L & K & H).
  exists s', p'. split; [assumption|]. inversion Hs as [? Hlt|? pk l' pks' E Hlp Hs']; subst.
  - destruct (Nat.ltb_spec (length (to_sync (s_data s))) 188); [|lia]. destruct H as [H H2]. split; [assumption|].
    split; [assumption|]. rewrite H2. constructor. cbn. lia.
  - rewrite E, app_length in H. destruct (Nat.ltb_spec (length pk + length l') 188); [lia|].
    destruct H as (H & HD & HP). split; [assumption|]. rewrite <- Hlp in HD at 1. rewrite <- Hlp in HP at 2.
    rewrite skipn_app, skipn_all, Nat.sub_diag in HD. cbn [app skipn] in HD.
    rewrite firstn_app, firstn_all, Nat.sub_diag, firstn_O, app_nil_r in HP.
    split; [assumption|]. split; [assumption|]. rewrite HD. assumption.
Qed.
