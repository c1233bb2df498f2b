(** Proofs: the generator of the character tables. *)
From Coq Require Import String Ascii Permutation Sorted.
From Verif Require Import Prelude Facts M_text M_iso S_iso.

Lemma str_bytes s : bytes_of s = str s.
Proof. induction s as [|c s IH]; [reflexivity|]. cbn [bytes_of str]. rewrite IH. reflexivity. Qed.

Lemma position_in c l : forall v, position c l = Some v -> In c l.
Proof.
  induction l as [|x l IH]; intros v H; [discriminate|]. cbn [position] in H. destruct (N.eqb_spec x c); [left; assumption|].
  destruct (position c l); [right; exact (IH _ eq_refl)|discriminate].
Qed.
Lemma digit_to c v : digit c v -> to_digit 16 c = Some v /\ is_whitespace c = false /\ c <> 43 /\ v < 16.
Proof.
  intros [H|H]; pose proof (position_in _ _ _ H) as I; cbn in I;
    repeat (destruct I as [<-|I]; [vm_compute in H; injection H as <-; repeat split; try discriminate; vm_compute; reflexivity|]); contradiction.
Qed.
Lemma hex_ws l n : hex l n -> Forall (fun c => is_whitespace c = false /\ c <> 43) l /\ l <> [].
Proof.
  induction 1 as [c v H|l c n v H [IH IH'] D].
  - split; [|discriminate]. constructor; [|constructor]. destruct (digit_to _ _ H) as (_ & A & B & _). split; assumption.
  - split; [|destruct l; discriminate]. apply Forall_app. split; [exact IH|]. constructor; [|constructor]. destruct (digit_to _ _ D) as (_ & A & B & _). split; assumption.
Qed.
Lemma digits_app L r a : forall acc b, digits_value L r acc (a ++ b) = match digits_value L r acc a with Some v => digits_value L r v b | None => None end.
Proof.
  induction a as [|c a IH]; intros acc b; [reflexivity|]. cbn [app digits_value]. destruct (to_digit r c); [|reflexivity].
  destruct (acc * r <? L); [|reflexivity]. destruct (acc * r + n <? L); [apply IH|reflexivity].
Qed.
Lemma hex_value L l n : hex l n -> n < L -> digits_value L 16 0 l = Some n.
Proof.
  induction 1 as [c v H|l c n v H IH D]; intros B.
  - cbn [digits_value]. destruct (digit_to _ _ H) as (-> & _). change (0 * 16) with 0. rewrite N.add_0_l.
    destruct (N.ltb_spec 0 L); [|lia]. destruct (N.ltb_spec v L); [reflexivity|lia].
  - rewrite digits_app, IH by lia. cbn [digits_value]. destruct (digit_to _ _ D) as (-> & _).
    replace (n * 16) with (16 * n) by lia. destruct (N.ltb_spec (16 * n) L); [|lia]. destruct (N.ltb_spec (16 * n + v) L); [reflexivity|lia].
Qed.
Lemma hex_radix L l n : hex l n -> n < L -> from_str_radix L 16 l = Some n.
Proof.
  intros H B. destruct (hex_ws _ _ H) as [W E]. destruct l as [|c l]; [congruence|]. inversion W as [|? ? [_ W1] _]; subst.
  rewrite <- (hex_value L _ n H B). unfold from_str_radix.
  destruct c as [|p]; [reflexivity|]. do 6 (destruct p as [p|p|]; try reflexivity). exfalso. apply W1. reflexivity.
Qed.

Lemma blank_ws c : blank c -> is_whitespace c = true.
Proof. intros [->| ->]; reflexivity. Qed.
Lemma trim_blank w x : Forall blank w -> trim_left (w ++ x) = trim_left x.
Proof. induction 1 as [|c w H _ IH]; [reflexivity|]. cbn [app trim_left]. rewrite (blank_ws _ H). exact IH. Qed.
Lemma trim_left_app a c b : is_whitespace c = false -> trim_left (a ++ c :: b) = trim_left a ++ c :: b.
Proof. intros H. induction a as [|x a IH]; cbn [app trim_left]; [rewrite H; reflexivity|]. destruct (is_whitespace x); [exact IH|reflexivity]. Qed.
Lemma trim_right_app a c b : is_whitespace c = false -> trim_right (a ++ [c] ++ b) = a ++ [c] ++ trim_right b.
Proof.
  intros H. unfold trim_right. rewrite !rev_app_distr. cbn [rev app]. rewrite <- app_assoc. cbn [app]. rewrite trim_left_app by exact H.
  rewrite rev_app_distr. cbn [rev]. rewrite rev_involutive, <- app_assoc. reflexivity.
Qed.
Lemma trim_right_ws c b : is_whitespace c = true -> trim_right (c :: b) = [] \/ exists b', trim_right (c :: b) = c :: b'.
Proof.
  intros H. unfold trim_right. cbn [rev]. destruct (trim_left (rev b ++ [c])) as [|x l] eqn:E; [left; reflexivity|]. right.
  assert (G : forall a, trim_left (a ++ [c]) = [] \/ exists a', trim_left (a ++ [c]) = a' ++ [c]).
  { induction a as [|y a IH]; cbn [app trim_left]; [rewrite H; left; reflexivity|]. destruct (is_whitespace y); [exact IH|]. right. exists (y :: a). reflexivity. }
  destruct (G (rev b)) as [G1|(a' & G1)]; [congruence|]. rewrite <- E, G1, rev_app_distr. exists (rev a'). reflexivity.
Qed.
Lemma split_piece a : forall acc c b, Forall (fun x => is_whitespace x = false) a -> is_whitespace c = true ->
  split_on is_whitespace acc (a ++ c :: b) = (rev acc ++ a) :: split_on is_whitespace [] b.
Proof.
  induction a as [|x a IH]; intros acc c b W H; cbn [app split_on]; [rewrite H, app_nil_r; reflexivity|]. inversion W as [|? ? W1 W2]; subst.
  rewrite W1, IH by assumption. cbn [rev]. rewrite <- app_assoc. reflexivity.
Qed.
Lemma split_last a : forall acc, Forall (fun x => is_whitespace x = false) a -> split_on is_whitespace acc a = [rev acc ++ a].
Proof.
  induction a as [|x a IH]; intros acc W; cbn [split_on]; [rewrite app_nil_r; reflexivity|]. inversion W as [|? ? W1 W2]; subst.
  rewrite W1, IH by assumption. cbn [rev]. rewrite <- app_assoc. reflexivity.
Qed.

Definition put (arr : list N) (o : option (N * N)) : list N :=
  match o with None => arr | Some (a, b) => if a <? 0xA0 then arr else firstn (N.to_nat (a - 0xA0)) arr ++ b :: skipn (S (N.to_nat (a - 0xA0))) arr end.
Lemma not_hash (l : list N) : (match l with 35 :: _ => true | _ => false end) = true -> exists r, l = 35 :: r.
Proof. destruct l as [|[|p] l]; try discriminate. do 6 (destruct p as [p|p|]; try discriminate). intros _. exists l. reflexivity. Qed.

Lemma says_line arr l o : length arr = ARR_SIZE -> says l o -> read_line arr l = Ok (put arr o).
Proof.
  intros L H. destruct H as [w r W|w W|w c a s u b r W Hc Ha Hs Hu Hb Hr]; unfold read_line.
  - rewrite trim_blank by exact W. reflexivity.
  - rewrite <- (app_nil_r w), trim_blank by exact W. reflexivity.
  - rewrite trim_blank by exact W. change (trim_left (str "0x" ++ c ++ [s] ++ str "0x" ++ u ++ r)) with (str "0x" ++ c ++ [s] ++ str "0x" ++ u ++ r).
    change (match str "0x" ++ c ++ [s] ++ str "0x" ++ u ++ r with 35 :: _ => true | _ => false end) with false. cbv iota.
    destruct (hex_ws _ _ Hc) as [Wc Nc]. destruct (hex_ws _ _ Hu) as [Wu Nu].
    assert (Wc' : Forall (fun x => is_whitespace x = false) (str "0x" ++ c)) by (apply Forall_app; split; [repeat constructor|eapply Forall_impl; [|exact Wc]; intros ? []; assumption]).
    assert (Wu' : Forall (fun x => is_whitespace x = false) (str "0x" ++ u)) by (apply Forall_app; split; [repeat constructor|eapply Forall_impl; [|exact Wu]; intros ? []; assumption]).
    assert (R : exists rest, split_on is_whitespace [] (trim_right (str "0x" ++ c ++ [s] ++ str "0x" ++ u ++ r)) = (str "0x" ++ c) :: (str "0x" ++ u) :: rest).
    { destruct (exists_last Nu) as (u1 & z & Eu).
      assert (Wz : is_whitespace z = false) by (rewrite Eu in Wu; apply Forall_app in Wu as [_ Wu]; inversion Wu as [|? ? [Wz _] _]; exact Wz).
      assert (Et : trim_right (str "0x" ++ c ++ [s] ++ str "0x" ++ u ++ r) = (str "0x" ++ c) ++ s :: (str "0x" ++ u) ++ trim_right r).
      { rewrite Eu. transitivity (trim_right ((str "0x" ++ c ++ [s] ++ str "0x" ++ u1) ++ [z] ++ r)); [f_equal; rewrite <- !app_assoc; reflexivity|].
        rewrite trim_right_app by exact Wz. rewrite <- !app_assoc. reflexivity. }
      rewrite Et, split_piece by (assumption || exact (blank_ws _ Hs)). cbn [rev app].
      destruct Hr as [->|(s' & r' & Hs' & ->)]; [exists []; change (trim_right []) with (@nil N); rewrite app_nil_r, split_last by exact Wu'; reflexivity|].
      destruct (trim_right_ws s' r' (blank_ws _ Hs')) as [->|(b' & ->)]; [exists []; rewrite app_nil_r, split_last by exact Wu'; reflexivity|].
      eexists. rewrite split_piece by (assumption || exact (blank_ws _ Hs')). reflexivity. }
    destruct R as (rest & R). remember (trim_right (str "0x" ++ c ++ [s] ++ str "0x" ++ u ++ r)) as line eqn:El.
    destruct line as [|x line]; [cbn in R; discriminate R|]. clear El. rewrite R. cbn [nth_error unwrap bind].
    change (from_byte_2 (str "0x" ++ c)) with (Ok c : res (list N)). cbn [bind]. rewrite (hex_radix 256 c a Hc Ha). cbn [unwrap bind put].
    destruct (N.ltb_spec a 0xA0); [reflexivity|]. change (from_byte_2 (str "0x" ++ u)) with (Ok u : res (list N)). cbn [bind].
    rewrite (hex_radix 65536 u b Hu Hb). cbn [unwrap bind]. unfold set. rewrite L. change ARR_SIZE with 96%nat.
    destruct (Nat.ltb_spec (N.to_nat (a - 0xA0)) 96); [reflexivity|lia].
Qed.
Lemma line_cr arr l : read_line arr (l ++ [13]) = read_line arr l.
Proof.
  unfold read_line. assert (G : trim_left l = [] /\ trim_left (l ++ [13]) = [] \/ exists c t, trim_left l = c :: t /\ trim_left (l ++ [13]) = c :: t ++ [13]).
  { induction l as [|x l IH]; [left; split; reflexivity|]. cbn [app trim_left]. destruct (is_whitespace x); [exact IH|]. right. exists x, l. split; reflexivity. }
  destruct G as [[-> ->]|(c & t & -> & ->)]; [reflexivity|].
  assert (E : trim_right (c :: t ++ [13]) = trim_right (c :: t)) by (unfold trim_right; cbn [rev]; rewrite rev_app_distr; reflexivity).
  rewrite E. destruct c as [|p]; [reflexivity|]. do 6 (destruct p as [p|p|]; try reflexivity).
Qed.
Lemma lines_cut l : forall acc t, ~ In 10 l -> lines acc (l ++ 10 :: t) = strip_cr (rev l ++ acc) :: lines [] t.
Proof.
  induction l as [|c l IH]; intros acc t H; [reflexivity|]. cbn [app lines]. destruct (N.eqb_spec c 10) as [->|]; [exfalso; apply H; left; reflexivity|].
  rewrite IH by (intros X; apply H; right; exact X). cbn [rev]. rewrite <- app_assoc. reflexivity.
Qed.
Lemma lines_last l : forall acc, ~ In 10 l -> acc ++ l <> [] -> lines acc l = [rev acc ++ l].
Proof.
  induction l as [|c l IH]; intros acc H N; cbn [lines]; [rewrite app_nil_r in *; destruct acc; [congruence|reflexivity]|].
  destruct (N.eqb_spec c 10) as [->|]; [exfalso; apply H; left; reflexivity|]. rewrite IH; [cbn [rev]; rewrite <- app_assoc; reflexivity| |discriminate].
  intros X; apply H; right; exact X.
Qed.
Lemma strip_same arr l : read_line arr (strip_cr (rev l)) = read_line arr l.
Proof.
  destruct (rev l) as [|c r] eqn:E; [apply (f_equal (@rev N)) in E; rewrite rev_involutive in E; subst l; reflexivity|].
  assert (El : l = rev r ++ [c]) by (apply (f_equal (@rev N)) in E; rewrite rev_involutive in E; exact E).
  destruct (N.eq_dec c 13) as [->|D]; [cbn [strip_cr]; rewrite El; symmetry; apply line_cr|].
  assert (Es : strip_cr (c :: r) = l); [|rewrite Es; reflexivity].
  rewrite El. unfold strip_cr. destruct c as [|p]; [reflexivity|]. do 4 (destruct p as [p|p|]; try reflexivity). exfalso. apply D. reflexivity.
Qed.
Lemma put_length arr o : length arr = ARR_SIZE -> match o with Some (a, _) => a < 256 | None => True end -> length (put arr o) = ARR_SIZE.
Proof.
  intros L H. destruct o as [[a b]|]; [|exact L]. cbn [put]. destruct (N.ltb_spec a 0xA0); [exact L|].
  rewrite app_length, firstn_length. cbn [length]. rewrite skipn_length, L. change ARR_SIZE with 96%nat. lia.
Qed.
Lemma says_small l o : says l o -> match o with Some (a, b) => a < 256 /\ b < 65536 | None => True end.
Proof. destruct 1; [exact I|exact I|split; assumption]. Qed.
Lemma file_read t os : file t os -> forall arr, length arr = ARR_SIZE -> read_lines arr (lines [] t) = Ok (fold_left put os arr).
Proof.
  induction 1 as [|l o S N|l o e t os S N E F IH]; intros arr L; [reflexivity| |].
  - destruct l as [|c l].
    + pose proof (says_line arr [] o L S) as E. cbn in E. cbn [lines read_lines fold_left]. exact E.
    + rewrite lines_last by (assumption || discriminate). cbn [rev app read_lines fold_left]. rewrite (says_line arr _ o L S). reflexivity.
  - assert (Ex : exists x, lines [] (l ++ e ++ t) = x :: lines [] t /\ read_line arr x = read_line arr l).
    { destruct E as [-> | ->].
      - exists (strip_cr (rev l)). split; [|apply strip_same]. cbn [app]. rewrite lines_cut by exact N. rewrite app_nil_r. reflexivity.
      - exists (strip_cr (rev (l ++ [13]))). split; [|rewrite rev_app_distr; cbn [rev app strip_cr]; rewrite rev_involutive; reflexivity].
        change (l ++ [13; 10] ++ t) with (l ++ [13] ++ 10 :: t). rewrite app_assoc, lines_cut, app_nil_r; [reflexivity|].
        rewrite in_app_iff. intros [X|[X|[]]]; [contradiction|discriminate]. }
    destruct Ex as (x & -> & Ex). cbn [read_lines fold_left]. rewrite Ex, (says_line arr l o L S). cbn [bind]. apply IH.
    apply put_length; [exact L|]. apply says_small in S. destruct o as [[]|]; tauto.
Qed.
Definition small (o : option (N * N)) : Prop := match o with Some (a, b) => a < 256 /\ b < 65536 | None => True end.
Lemma file_small t os : file t os -> Forall small os.
Proof. induction 1 as [|l o S N|l o e t os S N E F IH]; constructor; try constructor; try exact (says_small _ _ S). exact IH. Qed.
Lemma put_nth arr o i : length arr = ARR_SIZE -> small o -> (i < 96)%nat ->
  nth i (put arr o) 0 = match o with Some (a, b) => if a =? 0xA0 + N.of_nat i then b else nth i arr 0 | None => nth i arr 0 end.
Proof.
  intros L Sm Hi. destruct o as [[a b]|]; [|reflexivity]. cbn [put small] in *. destruct (N.ltb_spec a 0xA0) as [A|A].
  - destruct (N.eqb_spec a (0xA0 + N.of_nat i)); [lia|reflexivity].
  - change ARR_SIZE with 96%nat in L. destruct (N.eqb_spec a (0xA0 + N.of_nat i)) as [E|E].
    + rewrite app_nth2 by (rewrite firstn_length; lia). rewrite firstn_length. replace (i - Nat.min (N.to_nat (a - 0xA0)) (length arr))%nat with 0%nat by lia. reflexivity.
    + set (k := N.to_nat (a - 0xA0)). assert (Hk : (k < 96)%nat) by (unfold k; lia). assert (Nk : i <> k) by (unfold k; lia).
      rewrite <- (firstn_skipn k arr) at 3. destruct (Nat.lt_ge_cases i k).
      * rewrite !app_nth1 by (rewrite firstn_length; lia). reflexivity.
      * rewrite !app_nth2 by (rewrite firstn_length; lia). rewrite firstn_length. replace (Nat.min k (length arr)) with k by lia.
        replace (i - k)%nat with (S (i - k - 1)) by lia. cbn [nth]. generalize (i - k - 1)%nat as j. clearbody k. clear. revert arr.
        induction k as [|k IH]; intros arr j; [destruct arr; [destruct j|]; reflexivity|]. destruct arr as [|x arr]; [destruct j; reflexivity|]. exact (IH arr j).
Qed.
Lemma put_all os : forall arr, length arr = ARR_SIZE -> Forall small os -> length (fold_left put os arr) = ARR_SIZE /\
  forall i, (i < 96)%nat -> nth i (fold_left put os arr) 0 =
    fold_left (fun v o => match o with Some (a, b) => if a =? 0xA0 + N.of_nat i then b else v | None => v end) os (nth i arr 0).
Proof.
  induction os as [|o os IH]; intros arr L S; [split; [exact L|reflexivity]|]. inversion S as [|? ? S1 S2]; subst. cbn [fold_left].
  destruct (IH (put arr o)) as [L' H]; [apply put_length; [exact L|destruct o as [[]|]; [apply S1|exact I]]|exact S2|]. split; [exact L'|].
  intros i Hi. rewrite (H i Hi), put_nth by assumption. reflexivity.
Qed.
Lemma put_character t os : file t os -> fold_left put os (repeat 0 ARR_SIZE) = map (fun i => character os (0xA0 + N.of_nat i)) (seq 0 96).
Proof.
  intros F. destruct (put_all os (repeat 0 ARR_SIZE) (repeat_length _ _) (file_small _ _ F)) as [L H].
  apply (nth_ext _ _ 0 0); [rewrite L, map_length, seq_length; reflexivity|]. intros i Hi. rewrite L in Hi. change ARR_SIZE with 96%nat in Hi.
  rewrite (H i Hi). symmetry. rewrite (nth_indep (map _ _) 0 (character os (0xA0 + N.of_nat 0))) by (rewrite map_length, seq_length; exact Hi).
  rewrite (map_nth (fun i => character os (0xA0 + N.of_nat i))), seq_nth by exact Hi. unfold character. f_equal. clear. symmetry. apply nth_repeat.
Qed.
Lemma character_small os c : Forall small os -> character os c < 65536.
Proof.
  intros S. unfold character. assert (H : 0 < 65536) by reflexivity. revert H. generalize 0 as v. induction S as [|o os S1 _ IH]; intros v H; [exact H|].
  cbn [fold_left]. apply IH. destruct o as [[a b]|]; [|exact H]. destruct (a =? c); [apply S1|exact H].
Qed.

Lemma hex_char_digit d : d < 16 -> digit (hex_char d) d.
Proof.
  intros H. left. assert (E : d = 0 \/ d = 1 \/ d = 2 \/ d = 3 \/ d = 4 \/ d = 5 \/ d = 6 \/ d = 7 \/ d = 8 \/ d = 9 \/ d = 10 \/ d = 11 \/ d = 12 \/ d = 13 \/ d = 14 \/ d = 15) by lia.
  repeat (destruct E as [->|E]; [reflexivity|]). subst d. reflexivity.
Qed.
Lemma hex4_hex u : u < 65536 -> hex (hex4 u) u.
Proof.
  intros H. unfold hex4. cbn [map]. rewrite !N.shiftr_div_pow2. change (2 ^ 12) with 4096. change (2 ^ 8) with 256. change (2 ^ 4) with 16. change (2 ^ 0) with 1.
  assert (E : u = 16 * (16 * (16 * (u / 4096 mod 16) + u / 256 mod 16) + u / 16 mod 16) + u / 1 mod 16) by (rewrite N.div_1_r; clear - H; dlia).
  rewrite E at 5. assert (M : forall x, x mod 16 < 16) by (intros x; apply N.mod_lt; discriminate).
  apply (hex_more [_; _; _] _ _ _); [|apply hex_char_digit, M]. apply (hex_more [_; _] _ _ _); [|apply hex_char_digit, M].
  apply (hex_more [_] _ _ _); [|apply hex_char_digit, M]. apply hex_one, hex_char_digit, M.
Qed.
Lemma print_elements arr : Forall (fun u => u < 65536) arr -> forall n, elements (print_arr n arr ++ [10]) arr.
Proof.
  induction 1 as [|u arr H _ IH]; intros n; [apply elements_nil; constructor; [right; reflexivity|constructor]|]. cbn [print_arr].
  rewrite <- !app_assoc. rewrite (str_bytes "0x"), (str_bytes ","). apply elements_cons; [|apply hex4_hex; exact H|apply IH].
  destruct (n mod 16 =? 0)%nat; repeat (apply Forall_cons; [first [left; reflexivity|right; reflexivity]|]); apply Forall_nil.
Qed.
Lemma file_printed path part t os : file t os -> exists out, read_file path part t = Ok out /\ declares part (underscore (stem path)) os out.
Proof.
  intros F. unfold read_file. rewrite (file_read t os F) by apply repeat_length. cbn [bind]. eexists. split; [reflexivity|].
  rewrite (put_character t os F). eexists. split.
  2:{ apply print_elements with (n := 0%nat). apply Forall_map. apply Forall_forall. intros i _. apply character_small. exact (file_small _ _ F). }
  rewrite !str_bytes, <- !app_assoc. reflexivity.
Qed.

(** ** the whole program *)
Lemma dec_digit c v : position c (str "0123456789") = Some v -> to_digit 10 c = Some v /\ c <> 45 /\ c <> 46 /\ c <> 43.
Proof.
  intros H. pose proof (position_in _ _ _ H) as I. cbn in I.
  repeat (destruct I as [<-|I]; [vm_compute in H; injection H as <-; repeat split; try discriminate; vm_compute; reflexivity|]); contradiction.
Qed.
Lemma decimal_plain l n : decimal l n -> Forall (fun c => c <> 45 /\ c <> 46 /\ c <> 43) l /\ l <> [].
Proof.
  induction 1 as [c v H|l c n v H [IH IH'] D].
  - split; [|discriminate]. constructor; [|constructor]. apply (dec_digit _ _ H).
  - split; [|destruct l; discriminate]. apply Forall_app. split; [exact IH|]. constructor; [|constructor]. apply (dec_digit _ _ D).
Qed.
Lemma decimal_value L l n : decimal l n -> n < L -> digits_value L 10 0 l = Some n.
Proof.
  induction 1 as [c v H|l c n v H IH D]; intros B.
  - cbn [digits_value]. destruct (dec_digit _ _ H) as (-> & _). change (0 * 10) with 0. rewrite N.add_0_l.
    destruct (N.ltb_spec 0 L); [|lia]. destruct (N.ltb_spec v L); [reflexivity|lia].
  - rewrite digits_app, IH by lia. cbn [digits_value]. destruct (dec_digit _ _ D) as (-> & _).
    replace (n * 10) with (10 * n) by lia. destruct (N.ltb_spec (10 * n) L); [|lia]. destruct (N.ltb_spec (10 * n + v) L); [reflexivity|lia].
Qed.
Lemma decimal_radix L l n : decimal l n -> n < L -> from_str_radix L 10 l = Some n.
Proof.
  intros H B. destruct (decimal_plain _ _ H) as [W E]. destruct l as [|c l]; [congruence|]. inversion W as [|? ? (_ & _ & W1) _]; subst.
  rewrite <- (decimal_value L _ n H B). unfold from_str_radix.
  destruct c as [|p]; [reflexivity|]. do 6 (destruct p as [p|p|]; try reflexivity). exfalso. apply W1. reflexivity.
Qed.
Lemma split_at f a : forall acc b, Forall (fun x => f x = false) a -> split_on f acc (a ++ b) =
  match b with [] => [rev acc ++ a] | c :: b' => if f c then (rev acc ++ a) :: split_on f [] b' else split_on f (rev a ++ acc) b end.
Proof.
  induction a as [|x a IH]; intros acc b W; cbn [app].
  - cbn [rev]. rewrite app_nil_r. destruct b as [|c b]; [reflexivity|]. cbn [split_on app]. destruct (f c); reflexivity.
  - inversion W as [|? ? W1 W2]; subst. cbn [split_on]. rewrite W1, IH by assumption. cbn [rev]. destruct b as [|c b]; [rewrite <- app_assoc; reflexivity|].
    destruct (f c); rewrite <- app_assoc; reflexivity.
Qed.
Lemma stem_of d : Forall (fun c => c <> 45 /\ c <> 46 /\ c <> 43) d -> stem (str "8859-" ++ d ++ str ".TXT") = str "8859-" ++ d.
Proof.
  intros H. unfold stem. rewrite app_assoc, split_at; [reflexivity|]. apply Forall_app. split; [repeat constructor|].
  eapply Forall_impl; [|exact H]. intros c (_ & X & _). apply N.eqb_neq. exact X.
Qed.
Lemma part_of d n : decimal d n -> n < 0x80000000 -> get_part (str "8859-" ++ d ++ str ".TXT") = Ok n.
Proof.
  intros H B. destruct (decimal_plain _ _ H) as [W _]. unfold get_part. rewrite stem_of by exact W.
  assert (E : split_on (fun c => c =? 45) [] (str "8859-" ++ d) = [str "8859"; d]).
  { change (str "8859-" ++ d) with (str "8859" ++ 45 :: d). rewrite split_at by (repeat constructor). cbn [N.eqb Pos.eqb rev app].
    f_equal. rewrite <- (app_nil_r d) at 1. rewrite split_at; [reflexivity|]. eapply Forall_impl; [|exact W]. intros c (X & _). apply N.eqb_neq. exact X. }
  rewrite E. cbn [nth_error unwrap bind]. rewrite (decimal_radix _ d n H B). reflexivity.
Qed.
Lemma underscore_of d : Forall (fun c => c <> 45 /\ c <> 46 /\ c <> 43) d -> underscore (str "8859-" ++ d) = str "8859_" ++ d.
Proof.
  intros H. unfold underscore. rewrite map_app. f_equal. induction H as [|c d (X & _) _ IH]; [reflexivity|]. cbn [map].
  destruct (N.eqb_spec c 45); [contradiction|]. f_equal. exact IH.
Qed.
Lemma part_name_of n s : In (n, s) parts -> part_name n = Ok (str s) /\ n < 0x80000000.
Proof.
  intros H. unfold parts in H. cbn [In] in H. repeat (destruct H as [H|H]; [injection H as <- <-; split; reflexivity|]). contradiction.
Qed.

(** sorting by distinct keys *)
Lemma insert_perm x l : Permutation (insert x l) (x :: l).
Proof.
  induction l as [|y l IH]; [reflexivity|]. cbn [insert]. destruct (fst x <=? fst y); [reflexivity|]. rewrite IH. apply perm_swap.
Qed.
Lemma sort_perm l : Permutation (sort_parts l) l.
Proof. induction l as [|x l IH]; [reflexivity|]. cbn [sort_parts fold_right]. rewrite insert_perm. apply perm_skip. exact IH. Qed.
Lemma insert_sorted x l : StronglySorted (fun a b => fst a <= fst b) l -> StronglySorted (fun a b => fst a <= fst b) (insert x l).
Proof.
  induction 1 as [|y l S IH F]; [repeat constructor|]. cbn [insert]. destruct (N.leb_spec (fst x) (fst y)) as [H|H].
  - constructor; [constructor; assumption|]. constructor; [exact H|]. eapply Forall_impl; [|exact F]. intros z Hz. cbn in Hz |- *. lia.
  - constructor; [exact IH|]. apply (Permutation_Forall (Permutation_sym (insert_perm x l))). constructor; [lia|exact F].
Qed.
Lemma sort_sorted l : StronglySorted (fun a b => fst a <= fst b) (sort_parts l).
Proof. induction l as [|x l IH]; [constructor|]. apply insert_sorted. exact IH. Qed.
Lemma sorted_unique (l' : list (N * (list N * list N))) : StronglySorted (fun a b => fst a < fst b) l' -> forall l, StronglySorted (fun a b => fst a <= fst b) l -> Permutation l l' -> l = l'.
Proof.
  induction 1 as [|y l' S IH F]; intros l Sl P; [apply Permutation_nil; symmetry; exact P|].
  destruct l as [|x l]; [apply Permutation_nil_cons in P; contradiction|]. inversion Sl as [|? ? Sl1 Sl2]; subst.
  assert (E : x = y).
  { assert (Ix : In x (y :: l')) by (apply (Permutation_in _ P); left; reflexivity). destruct Ix as [E|Ix]; [symmetry; exact E|].
    assert (Iy : In y (x :: l)) by (apply (Permutation_in _ (Permutation_sym P)); left; reflexivity). destruct Iy as [E|Iy]; [exact E|].
    rewrite Forall_forall in Sl2, F. specialize (Sl2 y Iy). specialize (F x Ix). lia. }
  subst y. f_equal. apply IH; [exact Sl1|]. exact (Permutation_cons_inv P).
Qed.

Lemma filter_perm {A} (f : A -> bool) l l' : Permutation l l' -> Permutation (filter f l) (filter f l').
Proof.
  induction 1 as [|x l l' _ IH|x y l|l l1 l2 _ IH1 _ IH2]; [constructor| | |exact (Permutation_trans IH1 IH2)]; cbn [filter].
  - destruct (f x); [apply perm_skip|]; exact IH.
  - destruct (f x), (f y); [apply perm_swap|reflexivity|reflexivity|reflexivity].
Qed.
Definition keyed (s : source) : N * (list N * list N) := (f_part s, (file_name s, f_text s)).
Lemma mapM_perm {A B} (f : A -> res B) (g : A -> B) l : Forall (fun x => f x = Ok (g x)) l -> mapM f l = Ok (map g l).
Proof. induction 1 as [|x l H _ IH]; [reflexivity|]. cbn [mapM map]. rewrite H. cbn [bind]. rewrite IH. reflexivity. Qed.
Lemma name_part s : good_source s -> get_part (file_name s) = Ok (f_part s).
Proof.
  intros (D & P & _). apply in_map_iff in P as ([n t] & E & P). cbn [fst] in E. subst n. apply part_of; [exact D|]. apply (part_name_of _ _ P).
Qed.
Lemma main_prints files ss hidden : Forall good_source ss -> StronglySorted (fun a b => f_part a < f_part b) ss ->
  Forall (fun f => exists r, fst f = 46 :: r) hidden ->
  Permutation files (map (fun s => (file_name s, f_text s)) ss ++ hidden) ->
  exists outs, main files = Ok (concat outs) /\ Forall2 declared ss outs.
Proof.
  intros G S H P. unfold main. set (f := fun f : list N * list N => match fst f with 46 :: _ => false | _ => true end).
  assert (Pf : Permutation (filter f files) (map (fun s => (file_name s, f_text s)) ss)).
  { rewrite (filter_perm f _ _ P), filter_app.
    assert (E1 : filter f (map (fun s => (file_name s, f_text s)) ss) = map (fun s => (file_name s, f_text s)) ss).
    { clear. induction ss as [|s ss IH]; [reflexivity|]. cbn [map filter]. change (f (file_name s, f_text s)) with true. cbv iota. rewrite IH. reflexivity. }
    assert (E2 : filter f hidden = []).
    { clear - H. induction H as [|[x y] hidden (r & E) _ IH]; [reflexivity|]. cbn [filter]. cbn [fst] in E. subst x. exact IH. }
    rewrite E1, E2, app_nil_r. reflexivity. }
  assert (K : exists ks, mapM (fun f => n <- get_part (fst f) ;; Ok (n, f)) (filter f files) = Ok ks /\ Permutation ks (map keyed ss)).
  { revert Pf. generalize (filter f files) as l. intros l Pf. apply Permutation_map_inv in Pf as (ss' & -> & Ps).
    exists (map keyed ss'). split; [|symmetry; apply Permutation_map; exact Ps].
    assert (G' : Forall good_source ss') by (apply (Permutation_Forall Ps); exact G). clear - G'. induction G' as [|s ss' Gs _ IH]; [reflexivity|].
    cbn [map mapM fst]. rewrite (name_part s Gs). cbn [bind]. rewrite IH. reflexivity. }
  destruct K as (ks & -> & Pk). cbn [bind].
  assert (Es : sort_parts ks = map keyed ss).
  { apply sorted_unique; [|apply sort_sorted|rewrite sort_perm; exact Pk]. clear - S. induction S as [|s ss _ IH F]; [constructor|]. cbn [map]. constructor; [exact IH|].
    apply Forall_map. exact F. }
  rewrite Es. clear - G. induction G as [|s ss Gs _ IH]; [exists []; split; [reflexivity|constructor]|].
  destruct IH as (outs & E & D). cbn [map mapM]. destruct Gs as (Dd & Pp & Fl). pose proof Pp as Pp'. apply in_map_iff in Pp' as ([n t] & En & Pn). cbn [fst] in En. subst n.
  cbn [keyed fst snd]. rewrite (proj1 (part_name_of _ _ Pn)). cbn [bind].
  destruct (file_printed (file_name s) (str t) (f_text s) (f_pairs s) Fl) as (out & Eo & Do). rewrite Eo. cbn [bind].
  destruct (mapM _ (map keyed ss)) as [os| |]; cbn [bind] in E |- *; [|discriminate|discriminate]. injection E as E.
  exists (out :: outs). split; [cbn [concat]; rewrite E; reflexivity|]. constructor; [|exact D]. exists t. split; [exact Pn|].
  destruct (decimal_plain _ _ Dd) as [W _]. unfold file_name in Do. rewrite stem_of, underscore_of in Do by exact W. exact Do.
Qed.
Lemma all_ws_trim r : (exists x, In x r /\ is_whitespace x = false) -> exists a x b, r = a ++ [x] ++ b /\ is_whitespace x = false /\ trim_right b = [].
Proof.
  induction r as [|y r IH]; intros (x & H & W); [contradiction|].
  assert (D : (exists z, In z r /\ is_whitespace z = false) \/ Forall (fun z => is_whitespace z = true) r).
  { clear. induction r as [|z r IH]; [right; constructor|]. destruct (is_whitespace z) eqn:E; [|left; exists z; split; [left; reflexivity|exact E]].
    destruct IH as [(u & H & W)|IH]; [left; exists u; split; [right; exact H|exact W]|right; constructor; assumption]. }
  destruct D as [D|D].
  - destruct (IH D) as (a & x' & b & -> & W' & T). exists (y :: a), x', b. auto.
  - destruct H as [->|H]; [|rewrite Forall_forall in D; rewrite (D x H) in W; discriminate]. exists [], x, r. split; [reflexivity|]. split; [exact W|].
    unfold trim_right. assert (E : trim_left (rev r) = []); [|rewrite E; reflexivity]. apply Forall_rev in D. induction D as [|z l Hz _ IHD]; [reflexivity|]. cbn [trim_left]. rewrite Hz. exact IHD.
Qed.
Lemma two_blanks path part w c a s s' r : Forall blank w -> hex c a -> 0xA0 <= a < 256 -> blank s -> blank s' -> ~ In 10 r ->
  (exists x, In x r /\ is_whitespace x = false) -> read_file path part (w ++ str "0x" ++ c ++ [s; s'] ++ r) = Panic.
Proof.
  intros W Hc Ha Hs Hs' Hr Hx. destruct (hex_ws _ _ Hc) as [Wc Nc]. unfold read_file.
  assert (B10 : forall x, blank x -> 10 <> x) by (intros x [->| ->]; discriminate).
  rewrite lines_last.
  2:{ rewrite !in_app_iff. cbn [In str]. intros [X|[X|[X|[X|X]]]].
      - rewrite Forall_forall in W. exact (B10 _ (W _ X) eq_refl).
      - destruct X as [X|[X|[]]]; discriminate.
      - rewrite Forall_forall in Wc. destruct (Wc _ X) as [Y _]. discriminate.
      - destruct X as [X|[X|[]]]; [exact (B10 _ Hs (eq_sym X))|exact (B10 _ Hs' (eq_sym X))].
      - exact (Hr X). }
  2:{ cbn [app]. destruct w; discriminate. }
  cbn [rev app read_lines]. unfold read_line. change (w ++ str "0x" ++ c ++ s :: s' :: r) with (w ++ str "0x" ++ c ++ [s; s'] ++ r). rewrite trim_blank by exact W.
  change (trim_left (str "0x" ++ c ++ [s; s'] ++ r)) with (str "0x" ++ c ++ [s; s'] ++ r).
  change (match str "0x" ++ c ++ [s; s'] ++ r with 35 :: _ => true | _ => false end) with false. cbv iota.
  destruct (all_ws_trim r Hx) as (r1 & x & r2 & -> & Wx & Tx).
  assert (Et : trim_right (str "0x" ++ c ++ [s; s'] ++ r1 ++ [x] ++ r2) = (str "0x" ++ c) ++ s :: s' :: r1 ++ [x]).
  { transitivity (trim_right ((str "0x" ++ c ++ [s; s'] ++ r1) ++ [x] ++ r2)); [f_equal; rewrite <- !app_assoc; reflexivity|].
    rewrite trim_right_app by exact Wx. rewrite Tx, app_nil_r, <- !app_assoc. reflexivity. }
  rewrite Et. assert (R : split_on is_whitespace [] ((str "0x" ++ c) ++ s :: s' :: r1 ++ [x]) = (str "0x" ++ c) :: [] :: split_on is_whitespace [] (r1 ++ [x])).
  { rewrite split_piece; [|apply Forall_app; split; [repeat constructor|eapply Forall_impl; [|exact Wc]; intros ? []; assumption]|exact (blank_ws _ Hs)].
    cbn [rev app split_on]. rewrite (blank_ws _ Hs'). reflexivity. }
  remember ((str "0x" ++ c) ++ s :: s' :: r1 ++ [x]) as line eqn:El. destruct line as [|z line]; [discriminate|]. rewrite R. cbn [nth_error unwrap bind].
  change (from_byte_2 (str "0x" ++ c)) with (Ok c : res (list N)). cbn [bind]. rewrite (hex_radix 256 c a Hc (proj2 Ha)). cbn [unwrap bind].
  destruct (N.ltb_spec a 0xA0); [lia|]. reflexivity.
Qed.

(** numbers and blanks as the standard library reads them, exactly *)
Lemma to_digit_iff c v : to_digit 16 c = Some v <-> digit c v.
Proof.
  split.
  - intros H. assert (B : c < 103).
    { unfold to_digit in H. destruct (N.leb_spec 48 c), (N.leb_spec c 57), (N.leb_spec 97 c), (N.leb_spec c 102), (N.leb_spec 65 c), (N.leb_spec c 70); cbn [andb] in H; try discriminate; lia. }
    assert (A : forall n, (n < 103)%nat -> to_digit 16 (N.of_nat n) = Some v -> digit (N.of_nat n) v).
    { intros n Hn. do 103 (destruct n as [|n]; [vm_compute; intros E; first [discriminate E | injection E as <-; first [left; reflexivity | right; reflexivity]]|]). lia. }
    specialize (A (N.to_nat c)). rewrite N2Nat.id in A. apply A; [lia|assumption].
  - intros H. apply digit_to in H as [H _]. exact H.
Qed.
Fixpoint hexv (acc : N) (s : list N) : option N :=
  match s with [] => Some acc | c :: s' => match to_digit 16 c with Some d => hexv (16 * acc + d) s' | None => None end end.
Lemma hexv_ge : forall s acc v, hexv acc s = Some v -> acc <= v.
Proof.
  induction s as [|c s IH]; intros acc v H; cbn [hexv] in H; [injection H as <-; lia|].
  destruct (to_digit 16 c); [|discriminate]. apply IH in H. lia.
Qed.
Lemma digits_value_iff limit : forall s acc v, acc < limit -> digits_value limit 16 acc s = Some v <-> hexv acc s = Some v /\ v < limit.
Proof.
  induction s as [|c s IH]; intros acc v L; cbn [digits_value hexv].
  - split; [intros H; injection H as <-; auto|intros [H _]; exact H].
  - destruct (to_digit 16 c) as [d|]; [|split; [discriminate|intros [H _]; discriminate H]].
    replace (16 * acc + d) with (acc * 16 + d) by lia.
    destruct (N.ltb_spec (acc * 16) limit) as [A|A].
    + destruct (N.ltb_spec (acc * 16 + d) limit) as [B|B]; [apply IH; exact B|].
      split; [discriminate|]. intros [H V]. apply hexv_ge in H. lia.
    + split; [discriminate|]. intros [H V]. apply hexv_ge in H. lia.
Qed.
Lemma hexv_app : forall a b acc, hexv acc (a ++ b) = match hexv acc a with Some x => hexv x b | None => None end.
Proof. induction a as [|c a IH]; intros b acc; cbn [hexv app]; [reflexivity|]. destruct (to_digit 16 c); [apply IH|reflexivity]. Qed.
Lemma hex_iff s v : hex s v <-> s <> [] /\ hexv 0 s = Some v.
Proof.
  split.
  - induction 1 as [c v D|l c n v H IH D]; apply to_digit_iff in D.
    + split; [discriminate|]. cbn [hexv]. rewrite D. reflexivity.
    + destruct IH as [_ IH]. split; [destruct l; discriminate|]. rewrite hexv_app, IH. cbn [hexv]. rewrite D. reflexivity.
  - revert v. induction s as [|c s IH] using rev_ind; intros v [N H]; [congruence|]. rewrite hexv_app in H. cbn [hexv] in H.
    destruct (hexv 0 s) as [n|] eqn:E; [|discriminate]. destruct (to_digit 16 c) as [d|] eqn:D; [|discriminate]. injection H as <-. apply to_digit_iff in D.
    destruct s as [|x s]; [cbn in E; injection E as <-; apply hex_one; exact D|]. apply hex_more; [|exact D]. apply IH. split; [discriminate|reflexivity].
Qed.
Lemma number_iff limit s v : 0 < limit -> from_str_radix limit 16 s = Some v <-> exists d, (s = d \/ s = 43 :: d) /\ hex d v /\ v < limit.
Proof.
  intros L. assert (P : forall d, hexv 0 (43 :: d) = None) by reflexivity.
  destruct s as [|c s]; [split; [discriminate|]; intros (d & [<-|H] & X & _); [apply hex_iff in X as [X _]; congruence|discriminate]|].
  destruct (N.eq_dec c 43) as [->|NE].
  - assert (E : from_str_radix limit 16 (43 :: s) = match s with [] => None | _ => digits_value limit 16 0 s end) by (destruct s; reflexivity).
    rewrite E. split.
    + intros H. exists s. split; [right; reflexivity|]. rewrite hex_iff. destruct s; [discriminate|]. apply digits_value_iff in H; [|exact L]. intuition discriminate.
    + intros (d & [<-|H] & X & V).
      * apply hex_iff in X as [_ X]. rewrite P in X. discriminate.
      * injection H as <-. apply hex_iff in X as [N X]. destruct s; [congruence|]. apply digits_value_iff; [exact L|]. split; assumption.
  - assert (E : from_str_radix limit 16 (c :: s) = digits_value limit 16 0 (c :: s)).
    { unfold from_str_radix. destruct c as [|p]; [reflexivity|]. do 6 (destruct p as [p|p|]; try reflexivity). exfalso. apply NE. reflexivity. }
    rewrite E, digits_value_iff by exact L. split.
    + intros [H V]. exists (c :: s). split; [left; reflexivity|]. rewrite hex_iff. intuition discriminate.
    + intros (d & [<-|H] & X & V); [apply hex_iff in X as [_ X]; split; assumption|]. injection H as H _. congruence.
Qed.
Lemma blank_iff c : is_whitespace c = true <-> In c [9; 10; 11; 12; 13; 32; 133; 160; 5760; 8192; 8193; 8194; 8195; 8196; 8197; 8198; 8199; 8200; 8201; 8202; 8232; 8233; 8239; 8287; 12288].
Proof.
  unfold is_whitespace. rewrite !orb_true_iff, !andb_true_iff, !N.leb_le, !N.eqb_eq. cbn [In]. split; [intros H|intros H]; lia.
Qed.
