(** Proofs about DVB text. *)
From Coq Require Import String.
From Verif Require Import Prelude Layout Facts M_textdata M_text S_textdata S_text.

Lemma get_nth_error {A} (l : list A) i x : nth_error l i = Some x -> get l i = Ok x.
Proof. unfold get. intros ->. reflexivity. Qed.

(** ** the tables *)
Definition page_of (cp : N) : option (list (N * N * N)) :=
  match find (fun x => fst x =? cp) pages with Some (_, p) => Some p | None => None end.

Definition good_page (map : list N) (page : list (N * N * N)) : bool :=
  (length map =? 96)%nat &&
  forallb (fun i => match nth_error map i, in_runs page (0xA0 + N.of_nat i) with
                    | Some u, Some v => (u =? v) && (0xA0 <=? u) && (u <? 0xD800)
                    | Some u, None => u =? 0
                    | None, _ => false end) (seq 0 96) &&
  forallb (fun i => match nth_error map i with
                    | Some 0 => true
                    | Some u => match position u map with Some j => (i =? j)%nat | None => false end
                    | None => false end) (seq 0 96).

Lemma pages_good cp : (codepage_map cp = None /\ page_of cp = None) \/
  exists map page, codepage_map cp = Some map /\ page_of cp = Some page /\ good_page map page = true.
Proof.
  unfold codepage_map, page_of, pages, find, fst.
  repeat match goal with
  | |- context [?k =? ?c] => is_var k; destruct (N.eqb_spec k c) as [->|?];
      [right; eexists _, _; split; [reflexivity|]; split; [vm_compute; reflexivity|]; vm_compute; reflexivity|]
  end.
  left. split; [reflexivity|].
  repeat match goal with |- context [?k =? cp] => destruct (N.eqb_spec k cp); [exfalso; congruence|] end. reflexivity.
Qed.

Lemma page_in cp page : In (cp, page) pages <-> page_of cp = Some page.
Proof.
  split.
  - intros H. unfold pages in H.
    repeat (destruct H as [H|H]; [injection H as <- <-; reflexivity|]). destruct H.
  - unfold page_of. destruct (find (fun x => fst x =? cp) pages) as [[c p]|] eqn:E; [|discriminate].
    intros [= <-]. apply find_some in E as [E1 E2]. cbn [fst] in E2. apply N.eqb_eq in E2. subst c. exact E1.
Qed.

Lemma page_not_in cp : ~ In cp (map fst pages) <-> page_of cp = None.
Proof.
  split.
  - intros H. destruct (page_of cp) as [p|] eqn:E; [|reflexivity]. exfalso. apply H.
    apply page_in in E. apply (in_map fst) in E. exact E.
  - intros E H. apply in_map_iff in H as [[c p] [E1 H]]. cbn in E1. subst c. apply page_in in H. congruence.
Qed.

Lemma supported cp page : In (cp, page) pages ->
  exists map, codepage_map cp = Some map /\ good_page map page = true /\ cp <> 21 /\ cp <= 15.
Proof.
  intros H. assert (Hcp : cp <> 21 /\ cp <= 15).
  { unfold pages in H. repeat (destruct H as [H|H]; [injection H as <- <-; lia|]). destruct H. }
  apply page_in in H. destruct (pages_good cp) as [[_ E]|(map & page' & E1 & E2 & G)]; [congruence|].
  exists map. rewrite E2 in H. injection H as ->. tauto.
Qed.

Lemma unsupported cp : ~ In cp (map fst pages) -> codepage_map cp = None.
Proof.
  intros H. apply page_not_in in H. destruct (pages_good cp) as [[E _]|(map & page' & E1 & E2 & G)]; [assumption|congruence].
Qed.

Lemma good_nth map page i : good_page map page = true -> (i < 96)%nat ->
  exists u, nth_error map i = Some u /\
    ((u = 0 /\ in_runs page (0xA0 + N.of_nat i) = None) \/
     (in_runs page (0xA0 + N.of_nat i) = Some u /\ 0xA0 <= u < 0xD800 /\ position u map = Some i)).
Proof.
  intros G Hi. unfold good_page in G. rewrite !andb_true_iff in G. destruct G as [[G1 G2] G3].
  rewrite forallb_forall in G2, G3. specialize (G2 i). specialize (G3 i). rewrite in_seq in G2, G3.
  specialize (G2 ltac:(lia)). specialize (G3 ltac:(lia)).
  destruct (nth_error map i) as [u|]; [|discriminate]. exists u. split; [reflexivity|].
  destruct (in_runs page (0xA0 + N.of_nat i)) as [v|].
  - right. rewrite !andb_true_iff in G2. destruct G2 as [[E L1] L2].
    assert (u = v) by (apply N.eqb_eq; assumption). subst v.
    split; [reflexivity|]. split; [lia|]. destruct u as [|p]; [discriminate L1|].
    destruct (position (N.pos p) map); [|discriminate]. apply Nat.eqb_eq in G3. subst. reflexivity.
  - left. apply N.eqb_eq in G2. auto.
Qed.

Lemma good_length map page : good_page map page = true -> length map = 96%nat.
Proof. unfold good_page. rewrite !andb_true_iff. intros [[G _] _]. apply Nat.eqb_eq. exact G. Qed.

Lemma good_code map page c : good_page map page = true -> 0xA0 <= c < 256 ->
  exists u, nth_error map (N.to_nat (c - 0xA0)) = Some u /\
    ((u = 0 /\ in_runs page c = None) \/
     (in_runs page c = Some u /\ 0xA0 <= u < 0xD800 /\ position u map = Some (N.to_nat (c - 0xA0)))).
Proof.
  intros G Hc. destruct (good_nth map page (N.to_nat (c - 0xA0)) G) as (u & E & H); [lia|].
  exists u. replace (0xA0 + N.of_nat (N.to_nat (c - 0xA0))) with c in H by lia. auto.
Qed.

Lemma position_some c l i : position c l = Some i -> nth_error l i = Some c.
Proof.
  revert i. induction l as [|u l IH]; cbn; intros i H; [discriminate|].
  destruct (N.eqb_spec u c) as [->|Hne]; [injection H as <-; reflexivity|].
  destruct (position c l) as [j|]; [|discriminate]. injection H as <-. apply (IH j). reflexivity.
Qed.

Lemma position_none c l i : position c l = None -> nth_error l i <> Some c.
Proof.
  revert i. induction l as [|u l IH]; cbn; intros i H; [destruct i; discriminate|].
  destruct (N.eqb_spec u c) as [->|Hne]; [discriminate|]. destruct (position c l); [discriminate|].
  destruct i as [|i]; cbn; [congruence|]. apply IH. reflexivity.
Qed.

(** ** display *)
Lemma display_loop_spec map page data : good_page map page = true -> bytes data ->
  display_loop map data = Ok (flat_map (shown page) data).
Proof.
  intros G Hb. induction Hb as [|c data Hc _ IH]; [reflexivity|]. cbn [display_loop flat_map].
  unfold shown at 1. rewrite IH. cbn [bind].
  destruct (N.leb_spec c 0x7F) as [H|H].
  - destruct (N.ltb_spec c 0x80); [|lia]. reflexivity.
  - destruct (N.ltb_spec c 0x80); [lia|]. destruct (N.leb_spec 0xA0 c) as [H2|H2].
    + destruct (N.ltb_spec c 0xA0); [lia|].
      destruct (good_code map page c G ltac:(lia)) as (u & E & Hu). rewrite (get_nth_error _ _ _ E). cbn [bind].
      destruct Hu as [[-> ->]|(-> & Hu & _)]; [reflexivity|].
      destruct (N.eqb_spec u 0); [lia|]. unfold char_unchecked, scalar.
      destruct (N.ltb_spec u 0xD800); [|lia]. reflexivity.
    + destruct (N.ltb_spec c 0xA0); [|lia]. reflexivity.
Qed.

Lemma display_page cp page data : In (cp, page) pages -> bytes data ->
  dvb_display (mkDvb cp data) = Ok (Some (flat_map (shown page) data)).
Proof.
  intros H Hb. destruct (supported cp page H) as (map & E & G & Hne & _). unfold dvb_display. cbn [t_cp t_data].
  destruct data as [|b data]; [reflexivity|]. cbn [length Nat.eqb].
  destruct (N.eqb_spec cp UTF8) as [->|_]; [exfalso; apply Hne; reflexivity|]. rewrite E.
  rewrite (display_loop_spec map page) by assumption. reflexivity.
Qed.

Lemma shown_chars cp page b : In (cp, page) pages -> b < 256 -> Forall is_char (shown page b).
Proof.
  intros H Hb. destruct (supported cp page H) as (map & E & G & _). unfold shown.
  destruct (N.ltb_spec b 0x80); [constructor; [left; lia|constructor]|].
  destruct (N.ltb_spec b 0xA0); [constructor|].
  destruct (good_code map page b G ltac:(lia)) as (u & _ & [[_ ->]|(-> & Hu & _)]);
    (constructor; [left; lia|constructor]).
Qed.

(** ** encoding *)
Lemma has_position map page b c : good_page map page = true -> has page b c -> 
  position c map = Some (N.to_nat (b - 0xA0)) /\ 0xA0 <= c < 0xD800.
Proof.
  intros G [Hb E]. destruct (good_code map page b G Hb) as (u & En & [[_ E2]|(E2 & Hu & Hp)]); [congruence|].
  rewrite E in E2. injection E2 as ->. auto.
Qed.

Lemma position_has map page i c : good_page map page = true -> 0xA0 <= c -> position c map = Some i ->
  (i < 96)%nat /\ has page (0xA0 + N.of_nat i) c.
Proof.
  intros G Hc Hp. pose proof (position_some _ _ _ Hp) as En.
  assert (Hi : (i < 96)%nat). { rewrite <- (good_length map page G). apply nth_error_Some. congruence. }
  split; [assumption|]. destruct (good_nth map page i G Hi) as (u & En2 & Hu). rewrite En in En2. injection En2 as <-.
  destruct Hu as [[-> _]|(E & _)]; [lia|]. split; [lia|assumption].
Qed.

Lemma substitute_eq c : subst_char c = substitute c.
Proof.
  destruct c as [|p]; [reflexivity|]. unfold subst_char, substitute.
  do 14 (destruct p as [p|p|]; try reflexivity).
Qed.

Lemma encode_one m map page c : good_page map page = true -> c < 0x10000 ->
  exists x, (if c <=? 0x7F then Ok [cast U8 c]
      else if 0xA0 <=? c then
        match position c map with
        | Some v => v <- addw U8 m (cast U8 (N.of_nat v)) 0xA0 ;; Ok [v]
        | None => Ok (subst_char c)
        end
      else Ok []) = Ok x /\ encoded page c x.
Proof.
  intros G Hc. destruct (N.leb_spec c 0x7F).
  - exists [c]. unfold cast, U8. rewrite N.mod_small by lia. split; [reflexivity|]. constructor. lia.
  - destruct (N.leb_spec 0xA0 c).
    + destruct (position c map) as [i|] eqn:Ep.
      * destruct (position_has map page i c G ltac:(lia) Ep) as [Hi Hh].
        exists [0xA0 + N.of_nat i]. unfold cast, U8, addw. rewrite N.mod_small by lia.
        destruct (N.ltb_spec (N.of_nat i + 0xA0) 256); [|lia]. cbn [bind]. split; [do 2 f_equal; lia|].
        apply enc_page; [lia|assumption].
      * exists (subst_char c). split; [reflexivity|]. rewrite substitute_eq. apply enc_subst; [lia|].
        intros b Hh. destruct (has_position map page b c G Hh) as [E _]. congruence.
    + exists []. split; [reflexivity|]. apply enc_control. lia.
Qed.

Lemma encode_loop_spec m map page s : good_page map page = true ->
  exists chunks, encode_loop m map s = Ok (concat chunks) /\
    Forall2 (fun c x => encoded page (c mod 0x10000) x) s chunks.
Proof.
  intros G. induction s as [|c s (chunks & IH & F)]; [exists []; split; [reflexivity|constructor]|].
  cbn [encode_loop]. destruct (encode_one m map page (c mod 0x10000) G ltac:(apply N.mod_upper_bound; lia)) as (x & E & Hx).
  change (cast U16 c) with (c mod 0x10000). rewrite E. cbn [bind]. rewrite IH. cbn [bind].
  exists (x :: chunks). split; [reflexivity|]. constructor; assumption.
Qed.

Lemma from_str_page m s cp page : In (cp, page) pages ->
  exists chunks, dvb_from_str m s cp = Ok (mkDvb cp (concat chunks)) /\
    Forall2 (fun c x => encoded page (c mod 0x10000) x) s chunks.
Proof.
  intros H. destruct (supported cp page H) as (map & E & G & Hne & _). unfold dvb_from_str.
  destruct (N.eqb_spec cp UTF8) as [->|_]; [exfalso; apply Hne; reflexivity|]. rewrite E.
  destruct (encode_loop_spec m map page s G) as (chunks & -> & F). cbn [bind]. exists chunks. auto.
Qed.

Lemma encoded_bytes page c x : encoded page c x -> bytes x.
Proof.
  destruct 1 as [H|H|b H [Hb _]|H].
  - constructor; [lia|constructor].
  - constructor.
  - constructor; [lia|constructor].
  - unfold substitute.
    destruct c as [|p]; [repeat constructor|].
    do 14 (try (destruct p as [p|p|]; try (repeat constructor; lia))).
Qed.

Lemma encoded_fun cp page c x y : In (cp, page) pages -> encoded page c x -> encoded page c y -> x = y.
Proof.
  intros Hp Hx Hy. destruct (supported cp page Hp) as (map & E & G & _).
  destruct Hx as [H|H|b H Hh|H Hn]; destruct Hy as [H'|H'|b' H' Hh'|H' Hn']; try lia; try reflexivity.
  - destruct (has_position _ _ _ _ G Hh) as [E1 _]. destruct (has_position _ _ _ _ G Hh') as [E2 _].
    f_equal. destruct Hh as [Hb _]. destruct Hh' as [Hb' _]. assert (N.to_nat (b - 0xA0) = N.to_nat (b' - 0xA0)) by congruence. lia.
  - exfalso. exact (Hn' b Hh).
  - exfalso. exact (Hn b' Hh').
Qed.

Lemma concat_bytes l : Forall bytes l -> bytes (concat l).
Proof. induction 1; [constructor|]. cbn. apply Forall_app. split; assumption. Qed.

Lemma shown_encoded cp page c x : In (cp, page) pages -> representable page c -> encoded page c x -> flat_map (shown page) x = [c].
Proof.
  intros Hp Hr. destruct (supported cp page Hp) as (map & _ & G & _). destruct 1 as [H|H|b H [Hb E]|H Hn].
  - cbn. unfold shown. destruct (N.ltb_spec c 0x80); [reflexivity|lia].
  - destruct Hr as [Hr|(b & Hh)]; [lia|]. destruct (has_position _ _ _ _ G Hh). lia.
  - cbn. unfold shown. destruct (N.ltb_spec b 0x80); [lia|]. destruct (N.ltb_spec b 0xA0); [lia|]. rewrite E. reflexivity.
  - destruct Hr as [Hr|(b & Hh)]; [lia|]. exfalso. exact (Hn b Hh).
Qed.

Lemma representable_small cp page c : In (cp, page) pages -> representable page c -> c < 0xD800.
Proof.
  intros Hp [H|(b & Hh)]; [lia|]. destruct (supported cp page Hp) as (map & _ & G & _).
  destruct (has_position _ _ _ _ G Hh). lia.
Qed.

Lemma text_round m s cp page : In (cp, page) pages -> Forall (representable page) s ->
  exists t, dvb_from_str m s cp = Ok t /\ t_cp t = cp /\ dvb_display t = Ok (Some s).
Proof.
  intros Hp Hs. destruct (from_str_page m s cp page Hp) as (chunks & E & F). rewrite E. eexists. split; [reflexivity|].
  split; [reflexivity|].
  assert (Hb : bytes (concat chunks)).
  { apply concat_bytes. clear -F. induction F; constructor; [eapply encoded_bytes; eassumption|assumption]. }
  rewrite (display_page cp page) by assumption. do 2 f_equal.
  clear E Hb. induction F as [|c x s chunks Hx _ IH]; [reflexivity|].
  inversion Hs as [|? ? Hc Hs']; subst. cbn [concat]. rewrite flat_map_app, IH by assumption.
  rewrite N.mod_small in Hx by (pose proof (representable_small _ _ _ Hp Hc); lia).
  rewrite (shown_encoded cp page c x) by assumption. reflexivity.
Qed.

(** ** UTF-8 *)
Lemma utf8_lossy_char c l : is_char c -> lossy (utf8_char c ++ l) = c :: lossy l.
Proof.
  intros Hc. unfold utf8_char.
  destruct (N.ltb_spec c 0x80) as [H1|H1].
  { cbn [app lossy]. destruct (N.ltb_spec c 0x80); [reflexivity|lia]. }
  assert (M : forall x, cont (0x80 + x mod 64) = true).
  { intros x. unfold cont. assert (x mod 64 < 64) by (apply N.mod_upper_bound; lia).
    destruct (N.leb_spec 0x80 (0x80 + x mod 64)); [|lia]. destruct (N.ltb_spec (0x80 + x mod 64) 0xC0); [reflexivity|lia]. }
  assert (K : forall x, (0x80 + x mod 64) mod 64 = x mod 64) by (intros x; dlia).
  destruct (N.ltb_spec c 0x800) as [H2|H2].
  { cbn [app lossy]. assert (R : c / 64 < 32 /\ 2 <= c / 64) by dlia.
    destruct (N.ltb_spec (0xC0 + c / 64) 0x80); [lia|].
    destruct (N.leb_spec 0xC2 (0xC0 + c / 64)); [|lia]. destruct (N.ltb_spec (0xC0 + c / 64) 0xE0); [|lia]. cbn [andb].
    rewrite M, K. f_equal. dlia. }
  destruct (N.ltb_spec c 0x10000) as [H3|H3].
  { cbn [app lossy]. assert (R : c / 4096 < 16) by dlia.
    destruct (N.ltb_spec (0xE0 + c / 4096) 0x80); [lia|].
    destruct (N.ltb_spec (0xE0 + c / 4096) 0xE0); [lia|]. rewrite andb_false_r.
    destruct (N.leb_spec 0xE0 (0xE0 + c / 4096)); [|lia]. destruct (N.ltb_spec (0xE0 + c / 4096) 0xF0); [|lia]. cbn [andb].
    assert (L3 : lossy3 (0xE0 + c / 4096) (0x80 + c / 64 mod 64) = true).
    { unfold lossy3. destruct (N.eqb_spec (0xE0 + c / 4096) 0xE0) as [E|E].
      - assert (32 <= c / 64 mod 64 < 64) by dlia. apply andb_true_intro. split; [apply N.leb_le|apply N.ltb_lt]; lia.
      - destruct (N.eqb_spec (0xE0 + c / 4096) 0xED) as [E2|E2]; [|apply M].
        assert (c < 0xD800 \/ 0xE000 <= c) by (destruct Hc; lia).
        assert (c / 64 mod 64 < 32) by dlia. apply andb_true_intro. split; [apply N.leb_le|apply N.ltb_lt]; lia. }
    rewrite L3, M, !K. f_equal. dlia. }
  assert (H4 : c < 0x110000) by (destruct Hc; lia).
  cbn [app lossy]. assert (R : c / 262144 < 5) by dlia.
  destruct (N.ltb_spec (0xF0 + c / 262144) 0x80); [lia|].
  destruct (N.ltb_spec (0xF0 + c / 262144) 0xE0); [lia|]. rewrite andb_false_r.
  destruct (N.ltb_spec (0xF0 + c / 262144) 0xF0); [lia|]. rewrite andb_false_r.
  destruct (N.leb_spec 0xF0 (0xF0 + c / 262144)); [|lia]. destruct (N.ltb_spec (0xF0 + c / 262144) 0xF5); [|lia]. cbn [andb].
  assert (L4 : lossy4 (0xF0 + c / 262144) (0x80 + c / 4096 mod 64) = true).
  { unfold lossy4. destruct (N.eqb_spec (0xF0 + c / 262144) 0xF0) as [E|E].
    - assert (16 <= c / 4096 mod 64 < 64) by dlia. apply andb_true_intro. split; [apply N.leb_le|apply N.ltb_lt]; lia.
    - destruct (N.eqb_spec (0xF0 + c / 262144) 0xF4) as [E2|E2]; [|apply M].
      assert (c / 4096 mod 64 < 16) by dlia. apply andb_true_intro. split; [apply N.leb_le|apply N.ltb_lt]; lia. }
  rewrite L4, !M, !K. f_equal. dlia.
Qed.

Lemma utf8_lossy s : Forall is_char s -> lossy (utf8 s) = s.
Proof.
  induction 1 as [|c s Hc _ IH]; [reflexivity|]. cbn [utf8 flat_map]. fold (utf8 s).
  rewrite utf8_lossy_char by assumption. rewrite IH. reflexivity.
Qed.

Lemma utf8_round m s : Forall is_char s ->
  exists t, dvb_from_str m s 21 = Ok t /\ t_cp t = 21 /\ dvb_display t = Ok (Some s).
Proof.
  intros Hs. exists (mkDvb 21 (utf8 s)). split; [reflexivity|]. split; [reflexivity|].
  unfold dvb_display. cbn [t_cp t_data]. destruct s as [|c s]; [reflexivity|].
  replace (length (utf8 (c :: s)) =? 0)%nat with false.
  - change (21 =? UTF8) with true. cbv iota. rewrite utf8_lossy by assumption. reflexivity.
  - cbn [utf8 flat_map]. unfold utf8_char. destruct (c <? 0x80), (c <? 0x800), (c <? 0x10000); reflexivity.
Qed.

Lemma utf8_char_bytes c : is_char c -> bytes (utf8_char c).
Proof.
  intros Hc. assert (c < 0x110000) by (destruct Hc; lia). unfold utf8_char.
  assert (M : forall x, 0x80 + x mod 64 < 256) by (intros; dlia).
  destruct (N.ltb_spec c 0x80); [repeat constructor; lia|].
  destruct (N.ltb_spec c 0x800); [repeat constructor; try apply M; dlia|].
  destruct (N.ltb_spec c 0x10000); repeat constructor; try apply M; dlia.
Qed.

(** what is lossily decoded is always text *)
Lemma lossy_chars l : bytes l -> Forall is_char (lossy l).
Proof.
  assert (G : forall n l, (length l <= n)%nat -> bytes l -> Forall is_char (lossy l)).
  { clear l. induction n as [|n IH]; intros l Hl Hb; [destruct l; [constructor|cbn in Hl; lia]|].
    destruct l as [|a l1]; [constructor|]. inversion Hb as [|? ? Ha Hb1]; subst. cbn [length] in Hl. cbn [lossy].
    assert (B : is_char bad) by (right; unfold bad; lia).
    assert (I1 : Forall is_char (lossy l1)) by (apply IH; [lia|assumption]).
    destruct (N.ltb_spec a 0x80); [constructor; [left; lia|assumption]|].
    destruct (N.leb_spec 0xC2 a), (N.ltb_spec a 0xE0); cbn [andb];
    destruct (N.leb_spec 0xE0 a), (N.ltb_spec a 0xF0); cbn [andb]; try lia;
    destruct (N.leb_spec 0xF0 a), (N.ltb_spec a 0xF5); cbn [andb]; try lia; try (constructor; assumption).
    - destruct l1 as [|b l2]; [constructor; [assumption|constructor]|]. inversion Hb1; subst. cbn [length] in Hl.
      destruct (cont b); [|constructor; assumption].
      constructor; [left; dlia|apply IH; [lia|assumption]].
    - destruct l1 as [|b l2]; [constructor; [assumption|constructor]|]. inversion Hb1 as [|? ? Hbb Hb2]; subst. cbn [length] in Hl.
      destruct (lossy3 a b) eqn:L3; [|constructor; assumption].
      destruct l2 as [|c l3]; [constructor; [assumption|constructor]|]. inversion Hb2; subst. cbn [length] in Hl.
      destruct (cont c); [|constructor; [assumption|apply IH; [cbn [length]; lia|assumption]]].
      constructor; [|apply IH; [lia|assumption]].
      unfold lossy3, cont in L3. unfold is_char.
      destruct (N.eqb_spec a 0xED) as [->|E].
      + left. change (0xED =? 0xE0) with false in L3. cbv iota in L3. apply andb_prop in L3 as [L1 L2].
        apply N.leb_le in L1. apply N.ltb_lt in L2. dlia.
      + destruct (N.ltb_spec a 0xED); [left|right]; dlia.
    - destruct l1 as [|b l2]; [constructor; [assumption|constructor]|]. inversion Hb1 as [|? ? Hbb Hb2]; subst. cbn [length] in Hl.
      destruct (lossy4 a b) eqn:L4; [|constructor; assumption].
      destruct l2 as [|c l3]; [constructor; [assumption|constructor]|]. inversion Hb2 as [|? ? Hcc Hb3]; subst. cbn [length] in Hl.
      destruct (cont c); [|constructor; [assumption|apply IH; [cbn [length]; lia|assumption]]].
      destruct l3 as [|d l4]; [constructor; [assumption|constructor]|]. inversion Hb3; subst. cbn [length] in Hl.
      destruct (cont d); [|constructor; [assumption|apply IH; [cbn [length]; lia|assumption]]].
      constructor; [|apply IH; [lia|assumption]].
      right. unfold lossy4, cont in L4.
      destruct (N.eqb_spec a 0xF0) as [->|E0].
      + apply andb_prop in L4 as [L1 L2]. apply N.leb_le in L1. apply N.ltb_lt in L2. dlia.
      + destruct (N.eqb_spec a 0xF4) as [->|E4]; apply andb_prop in L4 as [L1 L2]; apply N.leb_le in L1; apply N.ltb_lt in L2.
        * dlia.
        * dlia. }
  intros Hb. apply (G (length l)); [lia|assumption].
Qed.
