(** Readers on readers. *)
From Verif Require Import Prelude Layout Facts M_ts M_reader S_reader P_ts P_psi P_reader M_tower.

(** ** the same as M_reader over a source *)
Lemma src_read_len s n s' d : src_read s n = (s', inl d) -> (length d <= n)%nat.
Proof.
  unfold src_read. destruct (s_sched s) as [|[k|x] l]; intros E; inversion E; rewrite firstn_length; lia.
Qed.
Lemma read_on_source s packet a b : (a <= b <= length packet)%nat -> read_on src_rd s packet a b = read_at s packet a b.
Proof.
  intros H. unfold read_on, read_at, slice. destruct (Nat.leb_spec a b); [|lia]. destruct (Nat.leb_spec b (length packet)); [|lia]. cbn [andb bind].
  unfold src_rd. rewrite firstn_length, skipn_length. replace (Nat.min (b - a) (length packet - a)) with (b - a)%nat by lia.
  assert (T : forall n, (n <= b - a)%nat -> skipn n (firstn (b - a) (skipn a packet)) ++ skipn b packet = skipn (a + n) packet).
  { intros n Hn. rewrite skipn_firstn_comm, skipn_skipn. replace b with ((b - a - n) + (n + a))%nat at 2 by lia. rewrite <- (skipn_skipn (b - a - n)), firstn_skipn.
    f_equal. lia. }
  destruct (src_read s (b - a)) as [s' [d|e]] eqn:E; cbn [bind].
  - assert (L : (length d <= b - a)%nat).
    { exact (src_read_len _ _ _ _ E). }
    rewrite <- app_assoc, T by exact L. reflexivity.
  - pose proof (T 0%nat ltac:(lia)) as T0. cbn [skipn] in T0. rewrite T0, Nat.add_0_r, firstn_skipn. reflexivity.
Qed.
Lemma read_at_len s packet a b s' p' r : (a <= b <= length packet)%nat -> read_at s packet a b = Ok (s', p', r) -> length p' = length packet /\ forall n, r = IoOk n -> (a + n <= b)%nat.
Proof.
  intros H E. unfold read_at in E. destruct (Nat.leb_spec a b); [|lia]. destruct (Nat.leb_spec b (length packet)); [|lia]. cbn [andb] in E.
  destruct (src_read s (b - a)) as [s1 [d|e]] eqn:R; injection E as <- <- <-.
  - assert (L : (length d <= b - a)%nat).
    { exact (src_read_len _ _ _ _ R). }
    rewrite !app_length, firstn_length, skipn_length. split; [lia|]. intros n [= <-]. lia.
  - split; [reflexivity|discriminate].
Qed.
Lemma hunt_on_source : forall fuel s packet, (1 <= length packet)%nat -> hunt_on src_rd fuel s packet = hunt fuel s packet.
Proof.
  induction fuel as [|fuel IH]; intros s packet L; [reflexivity|]. cbn [hunt_on hunt]. rewrite read_on_source by lia.
  destruct (read_at s packet 0 1) as [[[s1 p1] r]| |] eqn:E; cbn [bind]; try reflexivity. apply read_at_len in E as [E _]; [|lia].
  destruct r as [[|n]|e]; try reflexivity. destruct (is_sync p1) as [[]| |]; cbn [bind]; try reflexivity. apply IH. lia.
Qed.
Lemma fill_on_source : forall fuel s packet j, (j <= 188 <= length packet)%nat -> fill_on src_rd fuel s packet j = fill fuel s packet j.
Proof.
  induction fuel as [|fuel IH]; intros s packet j L; [reflexivity|]. cbn [fill_on fill]. destruct (j =? 188)%nat; [reflexivity|]. rewrite read_on_source by lia.
  destruct (read_at s packet j 188) as [[[s1 p1] r]| |] eqn:E; cbn [bind]; try reflexivity. apply read_at_len in E as [E N]; [|lia].
  destruct r as [[|n]|e]; try reflexivity. apply IH. specialize (N _ eq_refl). lia.
Qed.
Lemma ts_read_on_source s packet : ts_read_on src_rd (S (length (s_data s))) s packet = ts_read s packet.
Proof.
  unfold ts_read_on, ts_read. destruct (Nat.leb_spec 188 (length packet)); [|reflexivity]. rewrite hunt_on_source by lia.
  destruct (hunt_spec (S (length (s_data s))) s packet ltac:(lia) ltac:(lia)) as (s1 & p1 & r1 & E1 & L1 & _). rewrite E1. cbn [bind].
  destruct r1; [reflexivity|]. rewrite fill_on_source by lia. reflexivity.
Qed.

(** ** over any Read that delivers bytes *)
Definition streams {S} (rd : S -> list N -> res (S * list N * io)) (R : S -> list N -> Prop) : Prop :=
  forall s l buf, R s l -> buf <> [] -> exists s' buf' n, rd s buf = Ok (s', buf', IoOk n) /\ length buf' = length buf /\ (n <= length buf)%nat /\
    (n = 0%nat -> l = []) /\ exists l', l = firstn n buf' ++ l' /\ R s' l'.

Section Any.
Context {S : Type} (rd : S -> list N -> res (S * list N * io)) (R : S -> list N -> Prop).
Hypothesis H : streams rd R.

Lemma read_on_any s l packet a b : R s l -> (a < b <= length packet)%nat ->
  exists s' packet' n l', read_on rd s packet a b = Ok (s', packet', IoOk n) /\ length packet' = length packet /\ (a + n <= b)%nat /\ (n = 0%nat -> l = []) /\
    R s' l' /\ exists d, length d = n /\ l = d ++ l' /\ firstn (a + n) packet' = firstn a packet ++ d.
Proof.
  intros HR L. unfold read_on, slice. destruct (Nat.leb_spec a b); [|lia]. destruct (Nat.leb_spec b (length packet)); [|lia]. cbn [andb bind].
  set (t := firstn (b - a) (skipn a packet)). assert (Lt : length t = (b - a)%nat) by (unfold t; rewrite firstn_length, skipn_length; lia).
  destruct (H s l t HR) as (s' & t' & n & -> & Lt' & N & Z & l' & E & HR'); [intros X; rewrite X in Lt; cbn in Lt; lia|]. cbn [bind].
  eexists s', _, n, l'. split; [reflexivity|]. split; [rewrite !app_length, firstn_length, skipn_length; lia|]. split; [lia|]. split; [exact Z|]. split; [exact HR'|].
  exists (firstn n t'). split; [rewrite firstn_length; lia|]. split; [exact E|].
  rewrite firstn_app, firstn_firstn, firstn_length. replace (Nat.min (a + n) a) with a by lia. replace (Nat.min a (length packet)) with a by lia.
  replace (a + n - a)%nat with n by lia. rewrite firstn_app. replace (n - length t')%nat with 0%nat by lia. cbn [firstn]. rewrite app_nil_r. reflexivity.
Qed.

Lemma hunt_on_any : forall fuel s l packet, R s l -> (length l < fuel)%nat -> (1 <= length packet)%nat ->
  exists s' packet', length packet' = length packet /\
    match to_sync l with
    | [] => hunt_on rd fuel s packet = Ok (s', packet', Some (IoOk 0)) /\ R s' []
    | _ :: l' => hunt_on rd fuel s packet = Ok (s', packet', None) /\ firstn 1 packet' = [0x47] /\ R s' l'
    end.
Proof.
  induction fuel as [|fuel IH]; intros s l packet HR F L; [lia|]. cbn [hunt_on].
  destruct (read_on_any s l packet 0 1 HR ltac:(lia)) as (s1 & p1 & n & l1 & -> & L1 & N & Z & HR1 & d & Ld & E & P). cbn [bind].
  destruct n as [|n].
  - specialize (Z eq_refl). subst l. exists s1, p1. split; [exact L1|]. cbn [to_sync]. split; [reflexivity|].
    destruct d; [|discriminate]. cbn [app] in E. subst l1. exact HR1.
  - assert (n = 0%nat) by lia. subst n. destruct d as [|x [|]]; try discriminate. cbn [app] in E. subst l. cbn [firstn app] in P.
    destruct p1 as [|y p1]; [cbn in *; lia|]. cbn [firstn Nat.add] in P. injection P as ->. unfold is_sync. cbn [get nth_error bind]. cbn [to_sync].
    destruct (N.eqb_spec x 0x47) as [->|X].
    + exists s1, (0x47 :: p1). split; [exact L1|]. repeat split. exact HR1.
    + cbn [length] in F. destruct (IH s1 l1 (x :: p1) HR1 ltac:(lia) ltac:(cbn [length]; lia)) as (s2 & p2 & L2 & G). exists s2, p2. split; [congruence|exact G].
Qed.

Lemma fill_on_any : forall fuel s l packet j, R s l -> (188 < j + fuel)%nat -> (j <= 188 <= length packet)%nat ->
  exists s' packet', length packet' = length packet /\
    (((188 <= j + length l)%nat /\ fill_on rd fuel s packet j = Ok (s', packet', None) /\ firstn 188 packet' = firstn j packet ++ firstn (188 - j) l /\ R s' (skipn (188 - j) l)) \/
     ((j + length l < 188)%nat /\ fill_on rd fuel s packet j = Ok (s', packet', Some (IoOk 0)) /\ R s' [])).
Proof.
  induction fuel as [|fuel IH]; intros s l packet j HR F L; [lia|]. cbn [fill_on]. destruct (Nat.eqb_spec j 188) as [->|J].
  - exists s, packet. split; [reflexivity|]. left. split; [lia|]. split; [reflexivity|]. cbn [Nat.sub firstn skipn]. rewrite app_nil_r. split; [reflexivity|exact HR].
  - destruct (read_on_any s l packet j 188 HR ltac:(lia)) as (s1 & p1 & n & l1 & -> & L1 & N & Z & HR1 & d & Ld & E & P). cbn [bind].
    destruct n as [|n].
    + specialize (Z eq_refl). subst l. destruct d; [|discriminate]. cbn [app] in E. subst l1. exists s1, p1. split; [exact L1|]. right. split; [cbn; lia|]. split; [reflexivity|exact HR1].
    + destruct (IH s1 l1 p1 (j + Datatypes.S n)%nat HR1 ltac:(lia) ltac:(lia)) as (s2 & p2 & L2 & [(G1 & G2 & G3 & G4)|(G1 & G2 & G3)]).
      * exists s2, p2. split; [congruence|]. left. subst l. rewrite app_length. split; [lia|]. split; [exact G2|]. rewrite G3, P, <- app_assoc.
        replace (188 - j)%nat with (length d + (188 - (j + Datatypes.S n)))%nat by lia. rewrite firstn_app_2. split; [reflexivity|].
        rewrite skipn_app, skipn_all2 by lia. cbn [app]. replace (length d + (188 - (j + Datatypes.S n)) - length d)%nat with (188 - (j + Datatypes.S n))%nat by lia. exact G4.
      * exists s2, p2. split; [congruence|]. right. subst l. rewrite app_length. split; [lia|]. split; [exact G2|exact G3].
Qed.

Lemma cut_packet (l pk l' : list N) : 0x47 :: l = pk ++ l' -> length pk = 188%nat -> 0x47 :: firstn 187 l = pk /\ skipn 187 l = l'.
Proof.
  intros E L. destruct pk as [|x pk]; [discriminate|]. cbn [app] in E. injection E as <- ->. injection L as L. rewrite firstn_app, skipn_app, L, Nat.sub_diag.
  rewrite firstn_all2, skipn_all2 by (rewrite L; apply le_n). rewrite app_nil_r. split; reflexivity.
Qed.
Lemma to_sync_le l : (length (to_sync l) <= length l)%nat.
Proof. induction l as [|x l IH]; [cbn; lia|]. cbn [to_sync]. destruct (x =? 0x47); cbn [length]; lia. Qed.
Lemma to_sync_cons l x l' : to_sync l = x :: l' -> x = 0x47.
Proof. induction l as [|y l IH]; cbn [to_sync]; [discriminate|]. destruct (N.eqb_spec y 0x47); [congruence|exact IH]. Qed.

(** [fuel] is enough for what is to come *)
Definition ahead (fuel : nat) (s : S) (pks : list (list N)) : Prop := exists l, R s l /\ (length l < fuel)%nat /\ in_stream l pks.
Lemma ts_read_on_any fuel : delivers (ts_read_on rd fuel) (ahead fuel).
Proof.
  intros s pks buf (l & HR & F & I) L. unfold ts_read_on. destruct (Nat.leb_spec 188 (length buf)); [|lia].
  destruct (hunt_on_any fuel s l buf HR F ltac:(lia)) as (s1 & p1 & L1 & G). pose proof (to_sync_le l) as TL.
  destruct (to_sync l) as [|x l1] eqn:T.
  - destruct G as [-> HR1]. cbn [bind]. exists s1, p1. split; [exact L1|]. destruct pks as [|pk pks].
    + split; [reflexivity|]. exists []. split; [exact HR1|]. split; [cbn; lia|]. constructor. cbn. lia.
    + inversion I as [|? ? l' ? E Lp _]; subst. rewrite T in E. destruct pk; [discriminate|discriminate].
  - destruct G as (-> & P1 & HR1). cbn [bind]. pose proof (to_sync_cons _ _ _ T) as ->. cbn [length] in TL.
    destruct (fill_on_any 189 s1 l1 p1 1 HR1 ltac:(lia) ltac:(lia)) as (s2 & p2 & L2 & [(G1 & -> & G3 & G4)|(G1 & -> & G3)]); cbn [bind].
    + assert (PK : firstn 188 p2 = 0x47 :: firstn 187 l1) by (rewrite G3, P1; reflexivity).
      assert (GP : exists v, get_pid p2 = Ok v).
      { unfold get_pid, get. destruct (nth_error p2 1) eqn:N1; [|apply nth_error_None in N1; lia]. destruct (nth_error p2 2) eqn:N2; [|apply nth_error_None in N2; lia].
        cbn [bind]. eexists. reflexivity. }
      destruct GP as [v ->]. cbn [bind]. exists s2, p2. split; [congruence|]. inversion I as [? Sh|? pk l' pks' E Lp I']; subst.
      * rewrite T in Sh. cbn [length] in Sh. lia.
      * split; [reflexivity|]. rewrite T in E. split.
        -- rewrite PK. exact (proj1 (cut_packet _ _ _ E Lp)).
        -- exists (skipn 187 l1). split; [exact G4|]. split; [rewrite skipn_length; lia|].
           rewrite (proj2 (cut_packet _ _ _ E Lp)). exact I'.
    + exists s2, p2. split; [congruence|]. inversion I as [? Sh|? pk l' pks' E Lp I']; subst.
      * split; [reflexivity|]. exists []. split; [exact G3|]. split; [cbn; lia|]. constructor. cbn. lia.
      * rewrite T in E. apply (f_equal (@length N)) in E. rewrite app_length in E. cbn [length] in E. lia.
Qed.
End Any.

(** ** towers *)
Lemma src_streams : streams src_rd (fun s l => s_data s = l /\ no_fail (s_sched s)).
Proof.
  intros s l buf [D NF] B. unfold src_rd. assert (L : (0 < length buf)%nat) by (destruct buf; [congruence|cbn; lia]).
  destruct (src_read_cases s (length buf) L) as [(j & l' & u & E & J & Sc & U)|(e & l' & E & Sc)].
  - rewrite E. eexists _, _, _. split; [reflexivity|]. subst l. set (d := firstn j (s_data s)). assert (Ld : (length d <= j)%nat) by (unfold d; rewrite firstn_length; lia).
    split; [rewrite app_length, skipn_length; lia|]. split; [lia|]. split.
    + intros Z. unfold d in Z. rewrite firstn_length in Z. destruct (s_data s); [reflexivity|]. cbn [length] in Z. lia.
    + exists (skipn j (s_data s)). split.
      * rewrite firstn_app, firstn_all, Nat.sub_diag. cbn [firstn]. rewrite app_nil_r. unfold d. rewrite firstn_skipn. reflexivity.
      * split; [reflexivity|]. cbn [s_sched]. rewrite Sc in NF. apply Forall_app in NF. apply NF.
  - exfalso. rewrite Sc in NF. inversion NF as [|? ? X _]. exact X.
Qed.
Lemma drain_streams {S} (read : S -> list N -> res (S * list N * io)) Q : delivers read Q -> streams (drain_read read) (pending Q).
Proof.
  intros D d rest buf P B. destruct (drain_read_spec read Q d rest buf D P B) as (d' & buf' & n & E & L & N & Z & rest' & X & P').
  exists d', buf', n. split; [exact E|]. split; [exact L|]. split; [exact N|]. split; [exact Z|]. exists rest'. split; assumption.
Qed.
Lemma aligned pks : Forall (fun pk => length pk = 188%nat /\ hd 0 pk = 0x47) pks -> in_stream (concat pks) pks.
Proof.
  induction 1 as [|pk pks [L Hd] _ IH]; [constructor; cbn; lia|]. cbn [concat]. apply (in_next _ pk (concat pks)); [|exact L|exact IH].
  destruct pk as [|x pk]; [discriminate|]. cbn in Hd. subst x. reflexivity.
Qed.
Lemma in_stream_packets l pks : in_stream l pks -> Forall (fun pk => length pk = 188%nat /\ hd 0 pk = 0x47) pks /\ (length (concat pks) <= length l)%nat.
Proof.
  induction 1 as [|l pk l' pks T L _ [IH1 IH2]]; [split; [constructor|cbn; lia]|]. destruct pk as [|x pk]; [discriminate|]. pose proof (to_sync_cons _ _ _ T) as ->.
  split; [constructor; [split; [exact L|reflexivity]|exact IH1]|]. pose proof (to_sync_le l) as TL. rewrite T in TL. cbn [concat]. rewrite !app_length in *. lia.
Qed.

(** what a tower has still to give, as bytes *)
Fixpoint tower_ahead (fuel k : nat) : tower_state k -> list N -> Prop :=
  match k with
  | O => fun s l => s_data s = l /\ no_fail (s_sched s)
  | S k => pending (ahead (tower_ahead fuel k) fuel)
  end.
Lemma tower_streams fuel k : streams (tower fuel k) (tower_ahead fuel k).
Proof.
  induction k as [|k IH]; [exact src_streams|]. exact (drain_streams (ts_read_on (tower fuel k) fuel) _ (ts_read_on_any (tower fuel k) (tower_ahead fuel k) IH fuel)).
Qed.
Lemma tower_fresh fuel k s garbage pks : (forall i, length (garbage i) = 188%nat) -> (length (s_data s) < fuel)%nat -> no_fail (s_sched s) -> in_stream (s_data s) pks ->
  ahead (tower_ahead fuel k) fuel (tower_new k s garbage) pks.
Proof.
  intros G F NF I. induction k as [|k IH].
  - exists (s_data s). split; [split; [reflexivity|exact NF]|]. split; assumption.
  - destruct (in_stream_packets _ _ I) as [P L]. exists (concat pks). split; [|split; [lia|exact (aligned pks P)]].
    cbn [tower_new tower_ahead]. split; [apply G|]. split; [cbn; lia|]. exists pks. split; [exact IH|reflexivity].
Qed.
Lemma read_all_on_delivers {S} (read : S -> list N -> res (S * list N * io)) Q : delivers read Q -> forall n s packet pks, Q s pks -> (188 <= length packet)%nat ->
  exists s', read_all_on read n s packet = Ok (firstn n pks, s').
Proof.
  intros D. induction n as [|n IH]; intros s packet pks HQ L; [exists s; reflexivity|]. cbn [read_all_on].
  destruct (D s pks packet HQ L) as (s1 & p1 & L1 & E). destruct pks as [|pk pks].
  - destruct E as [-> _]. cbn [bind]. exists s1. reflexivity.
  - destruct E as (-> & P & HQ'). cbn [bind]. destruct (IH s1 p1 pks HQ' ltac:(lia)) as [s2 E2]. rewrite E2. cbn [bind]. exists s2. rewrite P. reflexivity.
Qed.
Theorem tower_reads fuel k n s garbage packet pks : (forall i, length (garbage i) = 188%nat) -> (length (s_data s) < fuel)%nat -> no_fail (s_sched s) -> in_stream (s_data s) pks ->
  (188 <= length packet)%nat -> exists s', read_all_on (ts_read_on (tower fuel k) fuel) n (tower_new k s garbage) packet = Ok (firstn n pks, s').
Proof.
  intros G F NF I L. apply (read_all_on_delivers _ _ (ts_read_on_any (tower fuel k) (tower_ahead fuel k) (tower_streams fuel k) fuel)); [|exact L].
  apply tower_fresh; assumption.
Qed.
Lemma too_many {S} (rd : S -> list N -> res (S * list N * io)) s s1 s2 packet t n fuel : (188 <= length packet)%nat ->
  rd s (firstn 1 packet) = Ok (s1, [0x47], IoOk 1) -> rd s1 (firstn 187 (skipn 1 packet)) = Ok (s2, t, IoOk n) -> (187 < n)%nat ->
  ts_read_on rd (Datatypes.S fuel) s packet = Panic.
Proof.
  intros L E1 E2 N. unfold ts_read_on. destruct (Nat.leb_spec 188 (length packet)); [|lia].
  assert (Hh : hunt_on rd (Datatypes.S fuel) s packet = Ok (s1, 0x47 :: skipn 1 packet, None)).
  { cbn [hunt_on]. unfold read_on, slice. destruct (Nat.leb_spec 1 (length packet)); [|lia]. change ((0 <=? 1)%nat) with true. cbn [andb bind Nat.sub].
    change (skipn 0 packet) with packet. rewrite E1. reflexivity. }
  rewrite Hh. cbn [bind]. change 189%nat with (Datatypes.S (Datatypes.S 187)). generalize 187%nat at 1. intros f. cbn [fill_on]. change ((1 =? 188)%nat) with false. cbv iota.
  unfold read_on at 1. unfold slice at 1. assert (Lc : length (0x47 :: skipn 1 packet) = length packet) by (cbn [length]; rewrite skipn_length; lia).
  rewrite Lc. destruct (Nat.leb_spec 188 (length packet)); [|lia]. change ((1 <=? 188)%nat) with true. cbn [andb bind].
  change (firstn (188 - 1) (skipn 1 (0x47 :: skipn 1 packet))) with (firstn 187 (skipn 1 packet)). rewrite E2. cbn [bind].
  destruct n as [|n]; [lia|]. destruct (Nat.eqb_spec (1 + Datatypes.S n) 188); [lia|]. unfold read_on, slice. destruct (Nat.leb_spec (1 + Datatypes.S n) 188); [lia|]. reflexivity.
Qed.
(** an error of the source goes up through the tower *)
Lemma tower_error fuel s e sched garbage : s_sched s = Fail e :: sched -> (forall i, length (garbage i) = 188%nat) -> (0 < fuel)%nat ->
  forall k buf, buf <> [] -> tower fuel k (tower_new k s garbage) buf = Ok (tower_new k (mkSource (s_data s) sched) garbage, buf, IoErr e).
Proof.
  intros Sc G F. destruct fuel as [|fuel]; [lia|]. 
  assert (U : forall {S} (rd : S -> list N -> res (S * list N * io)) s s' packet, (forall buf, buf <> [] -> rd s buf = Ok (s', buf, IoErr e)) -> (188 <= length packet)%nat ->
    ts_read_on rd (Datatypes.S fuel) s packet = Ok (s', packet, IoErr e)).
  { intros S rd t t' packet E L. unfold ts_read_on. destruct (Nat.leb_spec 188 (length packet)); [|lia]. cbn [hunt_on]. unfold read_on, slice.
    destruct packet as [|x packet]; [cbn in L; lia|]. cbn [length Nat.leb andb bind Nat.sub firstn skipn]. rewrite E by discriminate. reflexivity. }
  induction k as [|k IH]; intros buf B.
  - cbn [tower tower_new]. unfold src_rd, src_read. rewrite Sc. reflexivity.
  - cbn [tower tower_new]. unfold drain_read, drain_new. cbn [d_inner d_pos d_buf Nat.eqb]. destruct (Nat.leb_spec 188 (length buf)) as [L|L].
    + rewrite (U _ (tower (Datatypes.S fuel) k) _ _ buf IH L). reflexivity.
    + rewrite (U _ (tower (Datatypes.S fuel) k) _ _ (garbage k) IH) by (rewrite G; lia). reflexivity.
Qed.
Lemma endless {S} (rd : S -> list N -> res (S * list N * io)) : (forall s b, exists s' c n, rd s [b] = Ok (s', [c], IoOk n) /\ (0 < n)%nat /\ c <> 0x47) ->
  forall fuel s packet, (188 <= length packet)%nat -> ts_read_on rd fuel s packet = Hang.
Proof.
  intros E fuel s packet L. unfold ts_read_on. destruct (Nat.leb_spec 188 (length packet)); [|lia].
  assert (Hh : forall fuel s packet, packet <> [] -> hunt_on rd fuel s packet = Hang).
  { clear - E. induction fuel as [|fuel IH]; intros s packet B; [reflexivity|]. cbn [hunt_on]. destruct packet as [|b packet]; [congruence|].
    unfold read_on, slice. cbn [length Nat.leb andb bind Nat.sub firstn skipn app]. destruct (E s b) as (s' & c & n & -> & N & C). cbn [bind app].
    destruct n; [lia|]. unfold is_sync. cbn [get nth_error bind]. destruct (N.eqb_spec c 0x47); [congruence|]. apply IH. discriminate. }
  rewrite Hh; [reflexivity|]. intros ->. cbn in L. lia.
Qed.
