(** Proofs: what a reader finds in a damaged stream. *)
From Verif Require Import Prelude Layout S_reader P_reader S_lossy S_damage.
From Verif Require Import S_system.

Lemma in_packet x rest out : is_packet x -> in_stream (x ++ rest) out -> exists out', out = x :: out' /\ in_stream rest out'.
Proof.
  intros [L H] S. destruct (in_stream_total rest) as [o O]. exists o. split; [|exact O]. refine (in_stream_fun _ _ S _ _).
  refine (in_next _ x rest o _ L O). destruct x as [|b x]; [discriminate|]. cbn in H. subst b. reflexivity.
Qed.
Lemma in_packets r rest out : Forall is_packet r -> in_stream (concat r ++ rest) out -> exists out', out = r ++ out' /\ in_stream rest out'.
Proof.
  revert out. induction r as [|x r IH]; intros out F S; [exists out; auto|]. inversion F as [|? ? F1 F2]; subst. cbn [concat] in S. rewrite <- app_assoc in S.
  destruct (in_packet _ _ _ F1 S) as (o & -> & S'). destruct (IH _ F2 S') as (o' & -> & S2). exists o'. auto.
Qed.
Lemma in_junk junk l out : ~ In 0x47 junk -> in_stream (junk ++ l) out <-> in_stream l out.
Proof.
  intros J. split; intros S; inversion S as [? H|? pk l' pks E H H2]; subst.
  - constructor. rewrite to_sync_app in H by exact J. exact H.
  - rewrite to_sync_app in E by exact J. econstructor; eassumption.
  - constructor. rewrite to_sync_app by exact J. exact H.
  - eapply in_next; [rewrite to_sync_app by exact J; exact E|exact H|exact H2].
Qed.
Lemma misled_le l : forall i j, (i <= j)%nat -> misled j l -> misled i l.
Proof. destruct l as [|x r]; intros i j L M; [exact I|]. destruct M as (k & K & E & M). exists k. split; [lia|]. auto. Qed.

(** the first 0x47 from a place on *)
Lemma first_from (x : list N) i : (i <= length x)%nat ->
  (~ In 0x47 (skipn i x) /\ forall j, (i <= j < length x)%nat -> nth j x 0 <> 0x47) \/
  (exists j junk, (i <= j < length x)%nat /\ nth j x 0 = 0x47 /\ skipn i x = junk ++ skipn j x /\ ~ In 0x47 junk /\ forall k, (i <= k < length x)%nat -> nth k x 0 = 0x47 -> (j <= k)%nat).
Proof.
  intros L. remember (length x - i)%nat as n eqn:En. revert i L En. induction n as [|n IH]; intros i L En.
  - left. rewrite skipn_all2 by lia. split; [intros []|lia].
  - assert (Hi : (i < length x)%nat) by lia.
    assert (Sx : skipn i x = nth i x 0 :: skipn (S i) x).
    { clear - Hi. revert i Hi. induction x as [|b x IH]; intros i Hi; [cbn in Hi; lia|]. destruct i as [|i]; [reflexivity|]. cbn [length] in Hi. apply (IH i). lia. }
    destruct (N.eqb_spec (nth i x 0) 0x47) as [E|E].
    + right. exists i, []. split; [lia|]. split; [exact E|]. split; [reflexivity|]. split; [intros []|]. lia.
    + destruct (IH (S i) ltac:(lia) ltac:(lia)) as [[H1 H2]|(j & junk & H1 & H2 & H3 & H4 & H5)].
      * left. rewrite Sx. split; [intros [F|F]; [congruence|contradiction]|]. intros j Hj. destruct (Nat.eq_dec j i) as [->|D]; [exact E|apply H2; lia].
      * right. exists j, (nth i x 0 :: junk). split; [lia|]. split; [exact H2|]. split; [rewrite Sx, H3; reflexivity|]. split; [intros [F|F]; [congruence|contradiction]|].
        intros k Hk F. destruct (Nat.eq_dec k i) as [->|D]; [contradiction|]. apply H5; [lia|exact F].
Qed.
Lemma straddle a b rest out : (hd 0 a = 0x47) -> (0 < length a)%nat -> (length a <= 188)%nat -> length b = (188 - length a)%nat -> in_stream (a ++ b ++ rest) out ->
  exists out', out = (a ++ b) :: out' /\ in_stream rest out'.
Proof.
  intros H L1 L2 L3 S. rewrite app_assoc in S. apply in_packet; [|exact S]. split; [rewrite app_length; lia|]. destruct a; [cbn in L1; lia|exact H].
Qed.
Lemma hd_skipn (x : list N) j : (j < length x)%nat -> hd 0 (skipn j x) = nth j x 0.
Proof. revert j. induction x as [|b x IH]; intros j H; [cbn in H; lia|]. destruct j as [|j]; [reflexivity|]. cbn [skipn nth]. apply IH. cbn in H. lia. Qed.

(** behind the first [i] bytes of a packet *)
Lemma from_place rest r : forall x i out, (1 <= i < 188)%nat -> is_packet x -> Forall is_packet r -> in_stream (skipn i x ++ concat r ++ rest) out ->
  exists f lost kept out' d, out = f ++ kept ++ out' /\ x :: r = lost ++ kept /\
    ((misled i lost /\ kept = []) \/ (exists l y, lost = l ++ [y] /\ misled i l /\ ~ misled i lost)) /\
    in_stream (d ++ rest) out' /\ (length d < 188)%nat /\ (kept <> [] -> d = []).
Proof.
  induction r as [|y r IH]; intros x i out Hi Hx F S.
  all: destruct Hx as [Lx Hx]; destruct (first_from x i ltac:(lia)) as [[H1 H2]|(j & junk & H1 & H2 & H3 & H4 & H5)].
  - exists [], [x], [], out, []. split; [reflexivity|]. split; [reflexivity|]. split.
    + right. exists [], x. split; [reflexivity|]. split; [exact I|]. intros (j & J1 & J2 & _). apply (H2 j); [lia|exact J2].
    + apply in_junk in S; [|exact H1]. cbn [concat app] in S. split; [exact S|split; [cbn; lia|congruence]].
  - exists [], [x], [], out, (skipn i x). split; [reflexivity|]. split; [reflexivity|]. split; [|split; [exact S|split; [rewrite ?skipn_length; lia|congruence]]].
    left. split; [|reflexivity]. exists j. split; [lia|]. split; [exact H2|exact I].
  - apply in_junk in S; [|exact H1]. destruct (in_packets _ _ _ F S) as (o & -> & S'). exists [], [x], (y :: r), o, []. split; [reflexivity|]. split; [reflexivity|]. split.
    + right. exists [], x. split; [reflexivity|]. split; [exact I|]. intros (j & J1 & J2 & _). apply (H2 j); [lia|exact J2].
    + split; [exact S'|split; [cbn; lia|reflexivity]].
  - inversion F as [|? ? [F1 F1'] F2]; subst. rewrite H3 in S. rewrite <- app_assoc in S. apply in_junk in S; [|exact H4]. cbn [concat] in S.
    rewrite <- (firstn_skipn j y) in S. rewrite <- !app_assoc in S.
    destruct (straddle (skipn j x) (firstn j y) (skipn j y ++ concat r ++ rest) out) as (o & -> & S').
    + rewrite hd_skipn by lia. exact H2.
    + rewrite skipn_length. lia.
    + rewrite skipn_length. lia.
    + rewrite firstn_length, skipn_length. lia.
    + exact S.
    + destruct (IH y j o ltac:(lia) (conj F1 F1') F2 S') as (f & lost & kept & out' & d & -> & E & C & S2 & D).
      exists ((skipn j x ++ firstn j y) :: f), (x :: lost), kept, out', d. split; [reflexivity|]. split; [cbn [app]; rewrite E; reflexivity|]. split; [|split; [exact S2|exact D]].
      assert (Up : misled j lost -> misled i (x :: lost)) by (intros M; exists j; split; [lia|]; split; [exact H2|exact M]).
      destruct C as [[M K]|(l & z & El & M & NM)]; [left; auto|]. right. exists (x :: l), z. split; [cbn [app]; congruence|]. split.
      * exists j. split; [lia|]. split; [exact H2|exact M].
      * intros (k & K1 & K2 & K3). apply NM. apply (misled_le lost j k); [|exact K3]. apply H5; [lia|exact K2].
Qed.
Lemma behind_noise rest r : Forall is_packet r -> forall n d out, (length d <= n)%nat -> in_stream (d ++ concat r ++ rest) out ->
  exists f kept out' d', out = f ++ kept ++ out' /\ found_again r kept /\ in_stream (d' ++ rest) out' /\ (length d' < 188)%nat /\ (kept <> [] -> d' = []).
Proof.
  intros F. induction n as [|n IH]; intros d out L S; destruct (to_sync_split d) as (junk & E & J & H); set (e := to_sync d) in *; clearbody e; subst d.
  - destruct junk; [|cbn in L; lia]. destruct e; [|cbn in L; lia]. cbn [app] in S. destruct (in_packets _ _ _ F S) as (o & -> & S'). exists [], r, o, []. split; [reflexivity|]. split; [left; reflexivity|]. split; [exact S'|]. split; [cbn; lia|reflexivity].
  - rewrite app_length in L. rewrite <- app_assoc in S. apply in_junk in S; [|exact J]. destruct H as [->|H].
    { cbn [app] in S. destruct (in_packets _ _ _ F S) as (o & -> & S'). exists [], r, o, []. split; [reflexivity|]. split; [left; reflexivity|]. split; [exact S'|]. split; [cbn; lia|reflexivity]. }
    destruct e as [|b e]; [discriminate H|]. set (a := b :: e) in *.
    destruct (Nat.le_gt_cases 188 (length a)) as [G|G].
    + rewrite <- (firstn_skipn 188 a) in S. rewrite <- app_assoc in S. destruct (in_packet (firstn 188 a) (skipn 188 a ++ concat r ++ rest) out) as (o & -> & S'); [|exact S|].
      { split; [rewrite firstn_length; lia|]. exact H. }
      destruct (IH (skipn 188 a) o) as (f & kept & out' & d' & -> & FA & S2 & D); [rewrite skipn_length; lia|exact S'|].
      exists (firstn 188 a :: f), kept, out', d'. auto.
    + destruct r as [|x r].
      * exists [], [], out, a. split; [reflexivity|]. split; [left; reflexivity|]. split; [exact S|split; [exact G|congruence]].
      * inversion F as [|? ? [F1 F1'] F2]; subst. assert (La : (0 < length a)%nat) by (cbn; lia). cbn [concat] in S. rewrite <- (firstn_skipn (188 - length a) x) in S. rewrite <- !app_assoc in S.
        destruct (straddle a (firstn (188 - length a) x) (skipn (188 - length a) x ++ concat r ++ rest) out H La ltac:(lia)) as (o & -> & S'); [rewrite firstn_length; lia|exact S|].
        destruct (from_place rest r x (188 - length a) o ltac:(lia) (conj F1 F1') F2 S') as (f & lost & kept & out' & d & -> & E & C & S2 & D).
        exists ((a ++ firstn (188 - length a) x) :: f), kept, out', d. split; [reflexivity|]. split; [|auto]. right. exists (188 - length a)%nat, lost. split; [lia|]. split; [exact E|exact C].
Qed.
(** the whole stream; [d] is what is left of the piece before *)
Lemma found_from l : Forall (fun x => Forall is_packet (intact x)) l -> forall (b : bool) d out, (b = true -> d = []) -> (length d < 188)%nat -> in_stream (d ++ came l) out ->
  exists ks fs, found b l ks fs out.
Proof.
  induction l as [|x l IH]; intros F b d out B L S.
  - exists [], []. cbn [came flat_map] in S. rewrite app_nil_r in S. replace out with (@nil (list N)); [constructor|]. apply (in_stream_fun d); [|exact S]. constructor.
    destruct (to_sync_split d) as (junk & E & _). rewrite E, app_length in L. lia.
  - inversion F as [|? ? F1 F2]; subst. cbn [came flat_map] in S. change (flat_map _ l) with (came l) in S. rewrite <- app_assoc in S.
    assert (D : (b = true /\ ~ In 0x47 (noise x)) \/ (b = true -> In 0x47 (noise x))).
    { destruct b; [|right; discriminate]. destruct (in_dec N.eq_dec 0x47 (noise x)); [right|left]; auto. }
    destruct D as [[-> J]|D].
    + rewrite (B eq_refl) in S. cbn [app] in S. apply in_junk in S; [|exact J]. destruct (in_packets _ _ _ F1 S) as (o & -> & S').
      destruct (IH F2 true [] o ltac:(reflexivity) ltac:(cbn; lia) S') as (ks & fs & G). exists (intact x :: ks), fs. constructor; assumption.
    + rewrite app_assoc in S. destruct (behind_noise (came l) (intact x) F1 _ (d ++ noise x) out (le_n _) S) as (f & k & o & d' & -> & FA & S2 & L2 & D2).
      destruct (IH F2 (match k with [] => false | _ => true end) d' o) as (ks & fs & G); [destruct k; [discriminate|intros _; apply D2; discriminate]|exact L2|exact S2|].
      exists (k :: ks), (f ++ fs). constructor; assumption.
Qed.

(** ** marks *)
Lemma again_suffix r k : found_again r k -> r = firstn (length r - length k) r ++ k.
Proof.
  intros [->|(i & lost & _ & -> & _)]; [rewrite Nat.sub_diag; reflexivity|]. rewrite app_length, Nat.add_sub, firstn_app, Nat.sub_diag, firstn_all, firstn_O, app_nil_r. reflexivity.
Qed.
Lemma map_mark b l : map fst (mark b l) = l.
Proof. unfold mark. rewrite map_map. apply map_id. Qed.
Lemma got_app a b : got (a ++ b) = got a ++ got b.
Proof. unfold got. rewrite filter_app, map_app. reflexivity. Qed.
Lemma got_mark b l : got (mark b l) = if b then l else [].
Proof. unfold got, mark. induction l as [|x l IH]; [destruct b; reflexivity|]. destruct b; cbn [map filter snd fst] in *; rewrite IH; reflexivity. Qed.
Lemma marks_spec b l ks fs out : found b l ks fs out -> map fst (marks l ks) = sent_packets l /\ got (marks l ks) = concat ks.
Proof.
  induction 1 as [b|x l ks fs out J G [IH1 IH2]|b x l f k ks fs out J A G [IH1 IH2]]; [split; reflexivity| |]; cbn [marks sent_packets flat_map concat]; rewrite ?map_app, ?got_app, !map_mark, !got_mark.
  - rewrite Nat.sub_diag. cbn [firstn app]. rewrite IH1, IH2, <- app_assoc. split; reflexivity.
  - rewrite IH1, IH2. split; [|reflexivity]. pose proof (again_suffix _ _ A) as Q. set (w := firstn _ (intact x)) in *. clearbody w. rewrite Q, <- !app_assoc. reflexivity.
Qed.
Lemma found_filter b l ks fs out (P : list N -> bool) : found b l ks fs out -> Forall (fun x => P x = false) fs -> filter P out = filter P (concat ks).
Proof.
  assert (Z : forall f, Forall (fun x => P x = false) f -> filter P f = []) by (induction 1 as [|y f E _ IH]; [reflexivity|]; cbn [filter]; rewrite E; exact IH).
  induction 1 as [b|x l ks fs out J G IH|b x l f k ks fs out J A G IH]; intros F; [reflexivity| |]; cbn [concat]; rewrite !filter_app.
  - rewrite (IH F). reflexivity.
  - apply Forall_app in F as [F1 F2]. rewrite (Z _ F1), (IH F2). reflexivity.
Qed.

(** ** how much is lost *)
Lemma misled_len w l : forall n i, (188 - i <= n)%nat -> (1 <= i < 188)%nat -> varied (S w) l -> misled i l -> (length l <= (188 - i) * w)%nat.
Proof.
  intros n. revert l. induction n as [|n IH]; intros l i Hn Hi V M; [lia|].
  assert (Sp : exists a b, l = a ++ b /\ Forall (fun x => nth i x 0 = 0x47) a /\ (b = [] \/ ((S i < 188)%nat /\ misled (S i) b))).
  { clear V. revert M. induction l as [|x l IHl]; intros M; [exists [], []; repeat split; [constructor|left; reflexivity]|]. destruct M as (j & J & E & M). destruct (Nat.eq_dec i j) as [<-|D].
    - destruct (IHl M) as (a & b & -> & A & B). exists (x :: a), b. split; [reflexivity|]. split; [constructor; assumption|exact B].
    - exists [], (x :: l). split; [reflexivity|]. split; [constructor|]. right. split; [lia|]. exists j. split; [lia|]. split; assumption. }
  destruct Sp as (a & b & -> & A & B).
  assert (La : (length a <= w)%nat).
  { destruct (Nat.le_gt_cases (length a) w) as [G|G]; [exact G|]. exfalso. pose proof (V i [] (firstn (S w) a) (skipn (S w) a ++ b) Hi) as X.
    cbn [app] in X. rewrite app_assoc, firstn_skipn in X. specialize (X eq_refl). rewrite firstn_length in X. specialize (X ltac:(lia)).
    apply Exists_exists in X as (y & Y & NE). rewrite Forall_forall in A. apply NE, A. rewrite <- (firstn_skipn (S w) a). apply in_or_app. left. exact Y. }
  rewrite app_length. destruct B as [->|[B1 B2]]; [cbn [length]; nia|].
  assert (Vb : varied (S w) b) by (intros j p q r Hj E L; apply (V j (a ++ p) q r Hj); [rewrite E, <- app_assoc; reflexivity|exact L]).
  pose proof (IH b (S i) ltac:(lia) ltac:(lia) Vb B2). nia.
Qed.
Lemma varied_prefix w a b : varied w (a ++ b) -> varied w a.
Proof. intros V j p q r Hj E L. apply (V j p q (r ++ b) Hj); [rewrite E, <- !app_assoc; reflexivity|exact L]. Qed.
Lemma again_length w r k : varied (S w) r -> found_again r k -> (length r <= length k + 187 * w + 1)%nat.
Proof.
  intros V [->|(i & lost & Hi & -> & C)]; [lia|]. apply varied_prefix in V. rewrite app_length.
  assert (forall l, misled i l -> varied (S w) l -> (length l <= 187 * w)%nat) as Z by (intros l M Vl; pose proof (misled_len w l _ i (le_n _) Hi Vl M); nia).
  destruct C as [[M ->]|(l & x & -> & M & _)]; [pose proof (Z _ M V); cbn; lia|]. apply varied_prefix in V. pose proof (Z _ M V). rewrite app_length. cbn [length]. lia.
Qed.

Lemma stream_packets l pks : in_stream l pks -> Forall is_packet pks.
Proof.
  induction 1 as [|l pk l' pks E L S IH]; constructor; [|exact IH]. split; [exact L|]. destruct (to_sync_split l) as (j & _ & _ & [H|H]); rewrite E in H; destruct pk; try discriminate; exact H.
Qed.
Lemma intact_packets l : Forall is_packet (sent_packets l) -> Forall (fun x => Forall is_packet (intact x)) l.
Proof.
  induction l as [|x l IH]; intros F; constructor; cbn [sent_packets flat_map] in F; apply Forall_app in F as [F1 F2]; [|exact (IH F2)]. apply Forall_app in F1. apply F1.
Qed.
