(** Proofs for C68 *)
From Verif Require Import Prelude Facts Facts2 Layout S_reader M_ts M_reader M_cbr S_cbr.
From Verif Require P_ts P_reader.

Lemma get_app1 {A} (l r : list A) i : (i < length l)%nat -> get (l ++ r) i = get l i.
Proof. intros H. unfold get. rewrite nth_error_app1 by exact H. reflexivity. Qed.

Lemma is_pcr_app l r : (12 <= length l)%nat -> is_pcr (l ++ r) = is_pcr l.
Proof.
  intros H. unfold is_pcr, is_adaptation, get_adaptation_size.
  rewrite !get_app1 by lia. reflexivity.
Qed.
Lemma get_pid_app l r : (12 <= length l)%nat -> get_pid (l ++ r) = get_pid l.
Proof. intros H. unfold get_pid. rewrite !get_app1 by lia. reflexivity. Qed.
Lemma get_pcr_app m l r : (12 <= length l)%nat -> get_pcr m (l ++ r) = get_pcr m l.
Proof. intros H. unfold get_pcr. rewrite !get_app1 by lia. reflexivity. Qed.

(** the pair (pid, last_pcr) of the code for a clock *)
Definition clock_pid (k : option (N * N)) : N := match k with None => PID_NONE | Some (p, _) => p end.
Definition clock_pcr (k : option (N * N)) : N := match k with None => PCR_NONE | Some (_, v) => v end.

Lemma last_snoc {A} (l : list A) x d : last (l ++ [x]) d = x.
Proof. induction l as [|a l IH]; [reflexivity|]. cbn. destruct (l ++ [x]) eqn:E; [destruct l; discriminate|exact IH]. Qed.

Lemma clock_snoc pks pk : clock (pks ++ [pk]) =
  if has_pcr pk then
    match clock pks with
    | None => Some (pid_of pk, pcr_of pk)
    | Some (p, v) => if pid_of pk =? p then Some (p, pcr_of pk) else Some (p, v)
    end
  else clock pks.
Proof.
  unfold clock. rewrite filter_app. cbn [filter]. destruct (has_pcr pk); [|rewrite app_nil_r; reflexivity].
  destruct (filter has_pcr pks) as [|p l] eqn:E.
  - cbn [app filter]. rewrite N.eqb_refl. reflexivity.
  - cbn [app]. change (p :: l ++ [pk]) with ((p :: l) ++ [pk]). rewrite filter_app.
    replace (filter (fun q => pid_of q =? pid_of p) [pk]) with (if pid_of pk =? pid_of p then [pk] else [])
      by reflexivity.
    destruct (pid_of pk =? pid_of p).
    + rewrite map_app. cbn [map]. rewrite last_snoc. reflexivity.
    + rewrite app_nil_r. reflexivity.
Qed.

Lemma clock_pid_small pks : match clock pks with Some (p, _) => p < PID_NONE | None => True end.
Proof.
  unfold clock. destruct (filter has_pcr pks) as [|p l]; [exact I|]. unfold pid_of, PID_NONE.
  pose proof (field_lt p 11 13). change (2 ^ N.of_nat 13) with 8192 in *. lia.
Qed.

Lemma has_pcr_flag pk : has_pcr pk = flag pk 26 && (7 <=? field pk 32 8) && flag pk 43.
Proof.
  assert (F : forall k, (field pk k 1 =? 1) = flag pk k).
  { intros k. unfold flag. pose proof (field_lt pk k 1) as L. change (2 ^ N.of_nat 1) with 2 in L.
    destruct (N.eqb_spec (field pk k 1) 1), (N.eqb_spec (field pk k 1) 0); try reflexivity; lia. }
  unfold has_pcr. rewrite !F. reflexivity.
Qed.

(** the state after the packets [done], with [tail] left of the buffer *)
Definition after {S} (s : S) (done : list (list N)) (tail g1 : list N) : cbr S :=
  mkCbr s 0 [mkBlock (concat done ++ tail) 0 (188 * length done) 0 0; block_new g1]
    (clock_pid (clock done)) (clock_pcr (clock done)).

Lemma concat_188 (done : list (list N)) : Forall (fun pk => length pk = 188%nat) done ->
  length (concat done) = (188 * length done)%nat.
Proof. induction 1 as [|pk l H _ IH]; [reflexivity|]. cbn [concat length]. rewrite app_length, H, IH. lia. Qed.

Lemma analyze_packet {S} m (s : S) done pk tail g1 :
  Forall (fun pk => length pk = 188%nat) done -> length pk = 188%nat -> bytes pk ->
  analyze m (mkCbr s 0 [mkBlock (concat done ++ pk ++ tail) 0 (188 * length done) 0 0; block_new g1]
    (clock_pid (clock done)) (clock_pcr (clock done))) =
  Ok (mkCbr s 0 [mkBlock (concat done ++ pk ++ tail) 0 (188 * length done) 0 0; block_new g1]
    (clock_pid (clock (done ++ [pk]))) (clock_pcr (clock (done ++ [pk])))).
Proof.
  intros Hd Hl Hb. unfold analyze. cbn [c_blocks c_parity get nth_error bind b_buffer b_cap c_pid c_last c_inner].
  rewrite <- (concat_188 done Hd), slice_from_app. cbn [bind].
  rewrite is_pcr_app, P_ts.is_pcr_spec by (assumption || lia). rewrite <- has_pcr_flag. cbn [bind].
  rewrite clock_snoc. destruct (has_pcr pk); cbn [negb]; [|reflexivity].
  rewrite get_pid_app, P_ts.get_pid_spec by (assumption || lia). cbn [bind]. fold (pid_of pk).
  rewrite get_pcr_app, P_ts.get_pcr_spec by (assumption || lia). cbn [bind]. fold (pcr_of pk).
  pose proof (clock_pid_small done) as Hs.
  destruct (clock done) as [[p v]|]; cbn [clock_pid clock_pcr].
  - destruct (N.eqb_spec p PID_NONE); [lia|]. cbn [negb]. rewrite andb_true_r.
    destruct (N.eqb_spec (pid_of pk) p) as [->|]; cbn [negb]; [|reflexivity]. cbn [clock_pid clock_pcr].
    destruct (N.eqb_spec v (pcr_of pk)) as [<-|]; [rewrite andb_true_r; destruct (negb _); reflexivity|].
    rewrite andb_false_r. reflexivity.
  - rewrite N.eqb_refl. cbn [negb]. rewrite andb_false_r, N.eqb_refl. reflexivity.
Qed.

Lemma read_packet {S} (tsread : S -> list N -> res (S * list N * io)) m s s' done tail tail' pk g1 buf :
  Forall (fun pk => length pk = 188%nat) done -> bytes pk ->
  tsread s tail = Ok (s', tail', IoOk 188) -> firstn 188 tail' = pk -> length pk = 188%nat ->
  cbr_read tsread m (after s done tail g1) buf = Ok (after s' (done ++ [pk]) (skipn 188 tail') g1, buf, IoOk 188).
Proof.
  intros Hd Hb Hr Hf Hl. unfold cbr_read, push_packet, after at 1 2 3 4 5.
  cbn [c_blocks c_parity get nth_error bind b_buffer b_cap c_pid c_last c_inner].
  rewrite <- (concat_188 done Hd), slice_from_app. cbn [bind]. unfold after. cbn [c_inner]. rewrite Hr. cbn [bind].
  unfold set at 1. cbn [length Nat.ltb Nat.leb firstn skipn app bind b_pos b_pcr b_delta].
  rewrite firstn_app, Nat.sub_diag, firstn_all, firstn_O, app_nil_r. rewrite Nat.eqb_refl.
  rewrite <- (firstn_skipn 188 tail') at 1. rewrite Hf, (concat_188 done Hd).
  rewrite analyze_packet by assumption. cbn [bind c_blocks c_parity get nth_error b_buffer b_cap b_pos b_pcr b_delta].
  unfold set. cbn [length Nat.ltb Nat.leb firstn skipn app bind c_inner c_pid c_last].
  rewrite app_length, concat_app. cbn [concat length]. rewrite app_nil_r, <- app_assoc.
  replace (188 * (length done + 1))%nat with (188 * length done + 188)%nat by lia. reflexivity.
Qed.

(** a read that gives no packet *)
Lemma read_other {S} (tsread : S -> list N -> res (S * list N * io)) m s s' done tail tail' r g1 buf :
  Forall (fun pk => length pk = 188%nat) done ->
  tsread s tail = Ok (s', tail', r) -> r <> IoOk 188 ->
  cbr_read tsread m (after s done tail g1) buf = Ok (after s' done tail' g1, buf, r).
Proof.
  intros Hd Hr Hn. unfold cbr_read, push_packet, after.
  cbn [c_blocks c_parity get nth_error bind b_buffer b_cap c_pid c_last c_inner].
  rewrite <- (concat_188 done Hd), slice_from_app. cbn [bind]. rewrite Hr. cbn [bind].
  unfold set. cbn [length Nat.ltb Nat.leb firstn skipn app bind b_pos b_pcr b_delta].
  rewrite firstn_app, Nat.sub_diag, firstn_all, firstn_O, app_nil_r.
  destruct r as [n|e]; [|reflexivity]. destruct (Nat.eqb_spec n 188); [congruence|reflexivity].
Qed.
Lemma read_panic {S} (tsread : S -> list N -> res (S * list N * io)) m s done tail g1 buf :
  Forall (fun pk => length pk = 188%nat) done -> tsread s tail = Panic ->
  cbr_read tsread m (after s done tail g1) buf = Panic.
Proof.
  intros Hd Hr. unfold cbr_read, push_packet, after.
  cbn [c_blocks c_parity get nth_error bind b_buffer b_cap c_pid c_last c_inner].
  rewrite <- (concat_188 done Hd), slice_from_app. cbn [bind]. rewrite Hr. reflexivity.
Qed.

Section inner.
Context {S : Type} (tsread : S -> list N -> res (S * list N * io)) (R : S -> list (list N) -> Prop).
Hypothesis HD : P_reader.delivers tsread R.

Lemma delivers_length s pk pks : R s (pk :: pks) -> length pk = 188%nat.
Proof.
  intros H. destruct (HD s _ (repeat 0 188) H) as (s' & b' & L & _ & F & _); [rewrite repeat_length; lia|].
  rewrite <- F, firstn_length, L, repeat_length. reflexivity.
Qed.

(** reads while there are packets *)
Lemma reads_packets m g1 : forall bufs s done tail pks,
  Forall (fun pk => length pk = 188%nat) done -> Forall bytes pks -> R s pks ->
  (length bufs <= length pks)%nat -> (188 * length bufs <= length tail)%nat ->
  exists s' tail', cbr_reads tsread m (after s done tail g1) bufs =
      Ok (map (fun b => (b, IoOk 188)) bufs, after s' (done ++ firstn (length bufs) pks) tail' g1) /\
    length tail = (188 * length bufs + length tail')%nat /\ R s' (skipn (length bufs) pks) /\
    Forall (fun pk => length pk = 188%nat) (done ++ firstn (length bufs) pks).
Proof.
  induction bufs as [|b bufs IH]; intros s done tail pks Hd Hb HR Hn Ht.
  - exists s, tail. cbn [length firstn skipn map cbr_reads]. rewrite app_nil_r. split; [reflexivity|]. split; [reflexivity|]. split; assumption.
  - destruct pks as [|pk pks]; [cbn in Hn; lia|]. cbn [length] in Hn, Ht.
    pose proof (delivers_length _ _ _ HR) as Hl.
    assert (Ht1 : (188 <= length tail)%nat) by lia.
    destruct (HD s _ tail HR Ht1) as (s1 & t1 & L & Hr & Hf & HR1).
    inversion Hb as [|? ? Hb1 Hb2]; subst x l.
    assert (Hd' : Forall (fun pk => length pk = 188%nat) (done ++ [pk])) by (apply Forall_app; auto).
    destruct (IH s1 (done ++ [pk]) (skipn 188 t1) pks Hd' Hb2 HR1 (le_S_n _ _ Hn)) as (s' & tail' & E & Lt & HR' & Hd2).
    { rewrite skipn_length, L. lia. }
    exists s', tail'. cbn [cbr_reads]. rewrite (read_packet tsread m s s1 done tail t1 pk) by assumption. cbn [bind].
    rewrite E. cbn [bind length firstn skipn map]. rewrite <- app_assoc. cbn [app].
    split; [reflexivity|]. rewrite skipn_length, L in Lt. split; [lia|]. split; [exact HR'|].
    rewrite <- app_assoc in Hd2. exact Hd2.
Qed.

(** reads at the end of the stream *)
Lemma reads_end m g1 done : forall bufs s tail,
  Forall (fun pk => length pk = 188%nat) done -> R s [] -> (188 <= length tail)%nat ->
  exists s' tail', cbr_reads tsread m (after s done tail g1) bufs =
      Ok (map (fun b => (b, IoOk 0)) bufs, after s' done tail' g1) /\ length tail' = length tail.
Proof.
  induction bufs as [|b bufs IH]; intros s tail Hd HR Ht.
  - exists s, tail. split; reflexivity.
  - destruct (HD s _ tail HR Ht) as (s1 & t1 & L & Hr & HR1).
    destruct (IH s1 t1 Hd HR1 ltac:(lia)) as (s' & tail' & E & L').
    exists s', tail'. cbn [cbr_reads]. rewrite (read_other _ _ _ _ _ _ _ _ _ _ Hd Hr) by discriminate.
    cbn [bind]. rewrite E. cbn [bind map]. split; [reflexivity|lia].
Qed.
End inner.

Lemma reads_app {S} (tsread : S -> list N -> res (S * list N * io)) m : forall a b c,
  cbr_reads tsread m c (a ++ b) =
  (' (l, c) <- cbr_reads tsread m c a ;; ' (l', c) <- cbr_reads tsread m c b ;; Ok (l ++ l', c)).
Proof.
  induction a as [|x a IH]; intros b c.
  - cbn [app cbr_reads bind]. destruct (cbr_reads tsread m c b) as [[l c']| |]; reflexivity.
  - cbn [app cbr_reads]. destruct (cbr_read tsread m c x) as [[[c1 b1] r]| |]; cbn [bind]; try reflexivity.
    rewrite IH. destruct (cbr_reads tsread m c1 a) as [[l c2]| |]; cbn [bind]; try reflexivity.
    destruct (cbr_reads tsread m c2 b) as [[l' c3]| |]; reflexivity.
Qed.

Lemma new_after {S} (s : S) g0 g1 : cbr_new s g0 g1 = after s [] g0 g1.
Proof. reflexivity. Qed.

Lemma collects (S : Type) (tsread : S -> list N -> res (S * list N * io)) (R : S -> list (list N) -> Prop)
  m inner pks g0 g1 bufs :
  P_reader.delivers tsread R -> R inner pks -> Forall bytes pks ->
  (length bufs <= length pks)%nat -> (188 * length bufs <= length g0)%nat ->
  exists c tail, cbr_reads tsread m (cbr_new inner g0 g1) bufs = Ok (map (fun b => (b, IoOk 188)) bufs, c) /\
    c_parity c = 0%nat /\
    c_blocks c = [mkBlock (concat (firstn (length bufs) pks) ++ tail) 0 (188 * length bufs) 0 0; block_new g1] /\
    c_pid c = match clock (firstn (length bufs) pks) with Some (pid, _) => pid | None => 8192 end /\
    c_last c = match clock (firstn (length bufs) pks) with Some (_, pcr) => pcr | None => 2 ^ 33 * 300 end.
Proof.
  intros HD HR Hb Hn Hg. rewrite new_after.
  destruct (reads_packets tsread R HD m g1 bufs inner [] g0 pks ltac:(constructor) Hb HR Hn Hg) as (s' & tail & E & _ & _ & _).
  eexists _, tail. split; [exact E|]. unfold after. cbn [app c_parity c_blocks c_pid c_last]. split; [reflexivity|].
  rewrite firstn_length_le by exact Hn. repeat split; destruct (clock _) as [[? ?]|]; reflexivity.
Qed.

Lemma ends (S : Type) (tsread : S -> list N -> res (S * list N * io)) (R : S -> list (list N) -> Prop)
  m inner pks g0 g1 bufs more :
  P_reader.delivers tsread R -> R inner pks -> Forall bytes pks ->
  length bufs = length pks -> (188 * length pks + 188 <= length g0)%nat ->
  exists c tail, cbr_reads tsread m (cbr_new inner g0 g1) (bufs ++ more) =
      Ok (map (fun b => (b, IoOk 188)) bufs ++ map (fun b => (b, IoOk 0)) more, c) /\
    c_blocks c = [mkBlock (concat pks ++ tail) 0 (188 * length pks) 0 0; block_new g1] /\
    c_pid c = match clock pks with Some (pid, _) => pid | None => 8192 end /\
    c_last c = match clock pks with Some (_, pcr) => pcr | None => 2 ^ 33 * 300 end.
Proof.
  intros HD HR Hb Hn Hg. rewrite new_after, reads_app.
  destruct (reads_packets tsread R HD m g1 bufs inner [] g0 pks ltac:(constructor) Hb HR ltac:(lia) ltac:(lia))
    as (s' & tail & E & L & HR' & Hd).
  rewrite E. cbn [bind]. rewrite Hn in *. rewrite skipn_all2 in HR' by lia. rewrite firstn_all in *. cbn [app] in *.
  destruct (reads_end tsread R HD m g1 pks more s' tail Hd HR' ltac:(lia)) as (s2 & tail2 & E2 & L2).
  rewrite E2. cbn [bind]. eexists _, tail2. split; [reflexivity|]. unfold after. cbn [c_blocks c_pid c_last].
  repeat split; destruct (clock _) as [[? ?]|]; reflexivity.
Qed.

Lemma to_sync_bytes l : bytes l -> bytes (to_sync l).
Proof. induction 1 as [|b l H Hl IH]; cbn [to_sync]; [constructor|]. destruct (b =? 71); [constructor; assumption|exact IH]. Qed.

(** TsReader aborts on a buffer of fewer than 188 bytes *)
Lemma overflow m data sched pks g0 g1 bufs :
  Forall (fun e => match e with Fail _ => False | Chunk _ => True end) sched -> in_stream data pks -> bytes data ->
  (length g0 / 188 <= length pks)%nat -> (length g0 / 188 < length bufs)%nat ->
  cbr_reads ts_read m (cbr_new (mkSource data sched) g0 g1) bufs = Panic.
Proof.
  intros Hs Hp Hb Hk Hn. set (k := (length g0 / 188)%nat) in *.
  assert (Hm : (188 * k <= length g0 < 188 * k + 188)%nat).
  { unfold k. pose proof (Nat.div_mod (length g0) 188 ltac:(lia)).
    pose proof (Nat.mod_upper_bound (length g0) 188 ltac:(lia)). lia. }
  assert (Hbp : Forall bytes pks).
  { clear - Hp Hb. induction Hp as [|l pk l' pks E L H IH]; constructor.
    - apply Forall_forall. intros x Hx. assert (B : bytes (to_sync l)) by (apply to_sync_bytes; exact Hb).
      rewrite E in B. apply Forall_app in B. destruct B as [B _]. rewrite Forall_forall in B. exact (B x Hx).
    - apply IH. assert (B : bytes (to_sync l)) by (apply to_sync_bytes; exact Hb).
      rewrite E in B. apply Forall_app in B. exact (proj2 B). }
  rewrite <- (firstn_skipn k bufs), reads_app, new_after.
  destruct (reads_packets ts_read P_reader.reader_pending P_reader.reader_delivers m g1 (firstn k bufs)
    (mkSource data sched) [] g0 pks) as (s' & tail & E & L & HR' & Hd); try assumption.
  - constructor.
  - split; assumption.
  - rewrite firstn_length. lia.
  - rewrite firstn_length. lia.
  - rewrite E. cbn [bind]. rewrite firstn_length_le in L by lia.
    destruct (skipn k bufs) as [|b bs] eqn:Eb; [apply (f_equal (@length _)) in Eb; rewrite skipn_length in Eb; cbn in Eb; lia|].
    cbn [cbr_reads]. rewrite read_panic; [reflexivity|exact Hd|].
    unfold ts_read. destruct (Nat.leb_spec 188 (length tail)); [lia|reflexivity].
Qed.

Lemma overflow_size m data sched pks g0 g1 bufs :
  Forall (fun e => match e with Fail _ => False | Chunk _ => True end) sched -> in_stream data pks -> bytes data ->
  N.of_nat (length g0) = DEFAULT_BUF_SIZE -> 26595 <= N.of_nat (length pks) -> 26595 < N.of_nat (length bufs) ->
  cbr_reads ts_read m (cbr_new (mkSource data sched) g0 g1) bufs = Panic.
Proof.
  intros Hs Hp Hb Hg Hk Hn. assert (E : N.of_nat (length g0 / 188) = 26595).
  { rewrite Nat2N.inj_div, Hg. vm_compute. reflexivity. }
  apply (overflow m data sched pks g0 g1 bufs Hs Hp Hb); lia.
Qed.

(** an error of the inner reader is passed on; the next read uses the same place *)
Lemma error_kept (S : Type) (tsread : S -> list N -> res (S * list N * io)) m c b0 b1 buf s t e :
  c_parity c = 0%nat -> c_blocks c = [b0; b1] -> (b_cap b0 <= length (b_buffer b0))%nat ->
  tsread (c_inner c) (skipn (b_cap b0) (b_buffer b0)) = Ok (s, t, IoErr e) ->
  exists c' b', cbr_read tsread m c buf = Ok (c', buf, IoErr e) /\
    c_inner c' = s /\ c_parity c' = 0%nat /\ c_blocks c' = [b'; b1] /\ c_pid c' = c_pid c /\ c_last c' = c_last c /\
    b_cap b' = b_cap b0 /\ firstn (b_cap b0) (b_buffer b') = firstn (b_cap b0) (b_buffer b0).
Proof.
  intros Hp Hb Hc Hr. destruct c as [inner parity blocks pid lst]. cbn in Hp, Hb, Hr. subst parity blocks.
  unfold cbr_read, push_packet. cbn [c_blocks c_parity get nth_error bind c_inner].
  unfold slice_from. destruct (Nat.leb_spec (b_cap b0) (length (b_buffer b0))); [|lia]. cbn [bind]. rewrite Hr. cbn [bind].
  unfold set. cbn [length Nat.ltb Nat.leb firstn skipn app bind b_pos b_pcr b_delta c_pid c_last].
  eexists _, _. split; [reflexivity|]. cbn [c_blocks c_parity c_inner c_pid c_last b_cap b_buffer].
  repeat split. cbn [b_buffer b_cap]. rewrite firstn_app, firstn_firstn, Nat.min_id, firstn_length_le by exact Hc.
  rewrite Nat.sub_diag, firstn_O, app_nil_r. reflexivity.
Qed.
