(** Property theorems C98: packets found again in a damaged stream. Specification: S_damage, S_reader. *)
From Verif Require Import Prelude Layout S_ts S_psi M_psi M_recv M_tables S_tables M_reader S_reader M_system S_system M_multi S_multi S_loss S_lossy S_damage
  Props_tables Props_system Props_multi Props_lossy.
From Verif Require Props_reader P_reader P_damage P_sys2 P_lossy.

(** ** what a TsReader delivers, however the bytes come in *)
Theorem C98_found : forall l, Forall (fun x => Forall is_packet (intact x)) l ->
  exists ks fs out, found true l ks fs out /\
    forall n sched packet, no_fail sched -> (188 <= length packet)%nat ->
      exists s', read_all n (mkSource (came l) sched) packet = Ok (firstn n out, s') /\ ((length out < n)%nat -> s_data s' = []).
Proof.
  intros l F. destruct (P_reader.in_stream_total (came l)) as [out S].
  destruct (P_damage.found_from l F true [] out ltac:(reflexivity) ltac:(cbn; lia) S) as (ks & fs & G). exists ks, fs, out. split; [exact G|].
  intros n sched packet Hn Hl. destruct (P_reader.read_all_spec out (came l) (mkSource (came l) sched) packet n S eq_refl Hn Hl) as (s' & E & H & _). exists s'. auto.
Qed.
Print Assumptions C98_found.
(** the packets found are the marked ones of those sent, in order *)
Theorem C98_marks : forall b l ks fs out, found b l ks fs out ->
  map fst (marks l ks) = sent_packets l /\ got (marks l ks) = concat ks /\
  forall P, Forall (fun x => P x = false) fs -> filter P out = filter P (got (marks l ks)).
Proof.
  intros b l ks fs out G. destruct (P_damage.marks_spec b l ks fs out G) as [M1 M2]. split; [exact M1|]. split; [exact M2|].
  intros P F. rewrite M2. exact (P_damage.found_filter b l ks fs out P G F).
Qed.
Print Assumptions C98_marks.
(** how many packets behind a damage are lost: few when the bytes at a place change from packet to packet *)
Theorem C98_few : forall w r kept, varied (S w) r -> found_again r kept -> (length r <= length kept + 187 * w + 1)%nat.
Proof. exact P_damage.again_length. Qed.
Print Assumptions C98_few.
(** at most one when there is no 0x47 behind the first byte *)
Theorem C98_one : forall r kept, Forall (fun x => forall j, (1 <= j < 188)%nat -> nth j x 0 <> 0x47) r -> found_again r kept -> (length r <= length kept + 1)%nat.
Proof.
  intros r kept F G. pose proof (P_damage.again_length 0 r kept) as X. cbn in X. rewrite Nat.add_0_r in X. apply X; [|exact G].
  intros j a b c Hj -> L. destruct b as [|x [|]]; try discriminate. constructor. rewrite Forall_forall in F. apply F; [|exact Hj]. apply in_or_app. right. left. reflexivity.
Qed.
Print Assumptions C98_one.
(** but a reader may never find the packets, however many come *)
Definition looks_twice : list N := [0x47; 0; 0; 0x10; 0x47] ++ repeat 0 183.
Definition seen_instead : list N := skipn 4 looks_twice ++ firstn 4 looks_twice.
Theorem C98_never_refuted : forall n, exists l, Forall (fun x => Forall is_packet (intact x)) l /\ sent_packets l = repeat looks_twice (S n) /\
  length (came l) = (188 * S n - 1)%nat /\
  forall out, in_stream (came l) out -> out = repeat seen_instead n /\ ~ In looks_twice out.
Proof.
  intros n. exists [mkPiece [looks_twice] (skipn 1 looks_twice) (repeat looks_twice n)].
  assert (P : is_packet looks_twice) by (split; reflexivity).
  assert (F : Forall is_packet (repeat looks_twice n)) by (apply Forall_forall; intros x Hx; apply repeat_spec in Hx; subst x; exact P).
  assert (L : forall k, length (concat (repeat looks_twice k)) = (188 * k)%nat).
  { induction k as [|k IH]; [reflexivity|]. cbn [repeat concat]. rewrite app_length, IH. change (length looks_twice) with 188%nat. lia. }
  split; [constructor; [exact F|constructor]|]. split; [cbn [sent_packets flat_map gone intact app repeat]; rewrite app_nil_r; reflexivity|].
  unfold came. cbn [flat_map noise intact]. rewrite app_nil_r. split; [rewrite app_length, L; change (length (skipn 1 looks_twice)) with 187%nat; lia|].
  intros out S. change (skipn 1 looks_twice) with ([0; 0; 0x10] ++ skipn 4 looks_twice) in S. rewrite <- app_assoc in S.
  apply P_damage.in_junk in S; [|intros [X|[X|[X|[]]]]; discriminate X].
  assert (G : out = repeat seen_instead n).
  { clear F L. revert out S. induction n as [|n IH]; intros out S.
    - cbn [repeat concat] in S. rewrite app_nil_r in S. apply (P_reader.in_stream_fun _ _ S). constructor. apply Nat.ltb_lt. vm_compute. reflexivity.
    - cbn [repeat concat] in S. rewrite app_assoc in S. change (skipn 4 looks_twice ++ looks_twice) with (seen_instead ++ skipn 4 looks_twice) in S. rewrite <- app_assoc in S.
      destruct (P_damage.in_packet seen_instead _ _ ltac:(split; reflexivity) S) as (o & -> & S'). cbn [repeat]. f_equal. exact (IH o S'). }
  split; [exact G|]. rewrite G. intros X. apply repeat_spec in X. assert (N3 : nth 3 looks_twice 0 = nth 3 seen_instead 0) by (rewrite <- X; reflexivity). vm_compute in N3. discriminate N3.
Qed.
Print Assumptions C98_never_refuted.

(** ** tables behind a damaged stream: a multiplex (C94) is sent, the bytes that come are read and a table followed; if what is wrongly
    taken for packets has other PIDs and gaps show in the counters, the receiver gets of each table the sections of which all
    packets are found (C96) *)
Theorem C98_tables : forall T (parse : mode -> T -> psi -> res T) add bit, follows_tables parse add bit ->
  forall m jobs c dst c' l, is_out m jobs c dst c' (sent_packets l) -> Forall (fun x => bytes (noise x)) l ->
  exists ks fs out, found true l ks fs out /\
    forall pid, pid < 8192 -> Forall (fun x => on pid x = false) fs -> shows Nothing (filter (fun x => on pid (fst x)) (marks l ks)) ->
    exists xs ps, map fst xs = tables_on pid jobs /\ all_packets xs = filter (fun x => on pid (fst x)) (marks l ks) /\ Forall2 (fun x o => bit (fst x) (snd x) o) xs ps /\
      forall m' sched buf n p old, no_fail sched -> (188 <= length buf)%nat -> (length out < n)%nat ->
        exists s q, follow n m' (parse m') pid (mkSource (came l) sched) buf p old = Ok (s, q, fold_left add (somes ps) old) /\ s_data s = [].
Proof.
  intros T parse add bit FT m jobs c dst c' l O B.
  assert (PK : Forall is_packet (sent_packets l)) by (destruct (P_multi.out_stream m jobs c dst c' _ O) as [S _]; exact (P_damage.stream_packets _ _ S)).
  assert (BP : bytes (concat (sent_packets l))) by (destruct (P_multi.out_stream m jobs c dst c' _ O) as [_ X]; exact X).
  assert (BC : bytes (came l)).
  { clear - B BP. induction B as [|x l B1 _ IH]; [constructor|]. cbn [sent_packets flat_map] in BP. rewrite !concat_app in BP. unfold bytes in *. rewrite !Forall_app in BP. destruct BP as [[_ BP1] BP2].
    cbn [came flat_map]. rewrite !Forall_app. split; [split; assumption|exact (IH BP2)]. }
  destruct (P_reader.in_stream_total (came l)) as [out S].
  destruct (P_damage.found_from l (P_damage.intact_packets l PK) true [] out ltac:(reflexivity) ltac:(cbn; lia) S) as (ks & fs & G). exists ks, fs, out. split; [exact G|].
  intros pid Hp Fs Sh. destruct (C98_marks _ _ _ _ _ G) as (M1 & M2 & M3).
  assert (O' : is_out m jobs c dst c' (map fst (marks l ks))) by (rewrite M1; exact O).
  destruct (C96_multi m jobs c dst c' (marks l ks) pid O') as (_ & _ & xs & X1 & X2 & X3 & X4).
  assert (Cc : c pid < 16) by (destruct O as (_ & Cc & _); apply Cc).
  rewrite <- X2 in Sh. destruct (FT m pid (c pid) xs Hp Cc X3 Sh) as (ps & P1 & P2). exists xs, ps. split; [exact X1|]. split; [exact X2|]. split; [exact P1|].
  intros m' sched buf n p old Hs Hb Hn. destruct (P2 m' p old) as [q Q]. rewrite <- X4, <- (M3 (on pid) Fs) in Q.
  pose proof (P_sys2.follow_spec m' (parse m') pid out (came l) (mkSource (came l) sched) buf n p old S eq_refl BC Hs Hb Hn) as R. rewrite Q in R. destruct R as (s & R1 & R2). exists s, q. auto.
Qed.
Print Assumptions C98_tables.

(** a stream joined in the middle of a packet, with three bytes too many further on; and one in which such bytes look like a packet *)
Definition pat_packet (cc : N) : list N := concat (packets (TPat ex_pat) cc).
Definition joined : list piece := [mkPiece [pat_packet 3] (skipn 10 (pat_packet 3)) [pat_packet 4]; mkPiece [] [1; 2; 3] [pat_packet 5]].
Definition tricked : list piece := [mkPiece [] [0x47; 1] [pat_packet 4; pat_packet 5]].
Example C98_ex :
  Forall (fun x => Forall is_packet (intact x)) joined /\ Forall (fun x => Forall is_packet (intact x)) tricked /\
  match read_all 9 (mkSource (came joined) (repeat (Chunk 6) 100)) (repeat 0 188) with Ok (out, _) => out = [pat_packet 4; pat_packet 5] | _ => False end /\
  match read_all 9 (mkSource (came tricked) []) (repeat 0 188) with Ok (out, _) => out = [[0x47; 1] ++ firstn 186 (pat_packet 4); pat_packet 5] | _ => False end /\
  found true tricked [[pat_packet 5]] [[0x47; 1] ++ firstn 186 (pat_packet 4)] [[0x47; 1] ++ firstn 186 (pat_packet 4); pat_packet 5] /\
  match follow 9 Debug (pat_parse Debug) 18 (mkSource (came joined) []) (repeat 0 188) psi_default pat_default with
  | Ok (_, _, u) => pat_items u = pat_items ex_pat ++ pat_items ex_pat | _ => False end.
Proof.
  assert (P : forall cc, In cc [3; 4; 5] -> is_packet (pat_packet cc)) by (intros cc [<-|[<-|[<-|[]]]]; split; vm_compute; reflexivity).
  split; [repeat (constructor; [repeat (constructor; [apply P; cbn; tauto|]); constructor|]); constructor|].
  split; [repeat (constructor; [repeat (constructor; [apply P; cbn; tauto|]); constructor|]); constructor|].
  split; [vm_compute; reflexivity|]. split; [vm_compute; reflexivity|]. split; [|vm_compute; reflexivity].
  refine (found_some true (mkPiece [] [0x47; 1] [pat_packet 4; pat_packet 5]) [] [_] [pat_packet 5] [] [] [] (fun _ => or_introl eq_refl) _ (found_end _)).
  right. exists 186%nat, [pat_packet 4]. split; [lia|]. split; [reflexivity|]. right. exists [], (pat_packet 4). split; [reflexivity|]. split; [exact I|].
  intros (j & J & E & _). assert (j = 186 \/ j = 187)%nat as [-> | ->] by lia; vm_compute in E; discriminate E.
Qed.
