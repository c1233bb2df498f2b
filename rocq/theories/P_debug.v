(** Proofs about the Debug views of a packet. *)
From Coq Require Import String DecimalString DecimalN DecimalFacts Decimal Ascii.
From Verif Require Import Prelude Layout Facts S_ts S_debug M_ts M_debug P_ts.
Local Open Scope string_scope.

Definition spec_adaptation (ts : list N) : view :=
  if flag ts 26 then
    VStruct "TsAdaptation" (("length", VNum (field ts 32 8)) ::
      if (field ts 32 8 =? 0)%N then [] else
      ([("discontinuity", VBool (flag ts 40)); ("random_access", VBool (flag ts 41)); ("es_priority", VBool (flag ts 42));
        ("PCR_flag", VBool (flag ts 43)); ("OPCR_flag", VBool (flag ts 44)); ("splicing_point", VBool (flag ts 45));
        ("private_data", VBool (flag ts 46)); ("af_extension", VBool (flag ts 47))] ++
       if flag ts 43 then [("pcr", VNum (field ts 48 33 * 300 + field ts 87 9)%N)] else [])%list)
  else VBool false.

Lemma adaptation_view_spec m ts : (12 <= length ts)%nat -> bytes ts -> adaptation_view m ts = Ok (spec_adaptation ts).
Proof.
  intros Hl Hb. unfold adaptation_view, spec_adaptation.
  rewrite is_adaptation_spec by lia. cbn [bind]. destruct (flag ts 26) eqn:E26; cbn [negb]; [|reflexivity].
  rewrite get_adaptation_size_spec by (assumption || lia). cbn [bind].
  destruct (field ts 32 8 =? 0)%N eqn:E0; [reflexivity|].
  assert (P : exists p0, slice_from ts 5 = Ok (skipn 5 ts) /\ get (skipn 5 ts) 0 = Ok p0 /\
     negb (N.land p0 128 =? 0)%N = flag ts 40 /\ negb (N.land p0 64 =? 0)%N = flag ts 41 /\ negb (N.land p0 32 =? 0)%N = flag ts 42 /\
     negb (N.land p0 16 =? 0)%N = flag ts 43 /\ negb (N.land p0 8 =? 0)%N = flag ts 44 /\ negb (N.land p0 4 =? 0)%N = flag ts 45 /\
     negb (N.land p0 2 =? 0)%N = flag ts 46 /\ negb (N.land p0 1 =? 0)%N = flag ts 47).
  { clear E26 E0 Hb. peel ts 6%nat Hl. exists b4. split; [reflexivity|]. split; [reflexivity|]. fieldify.
    repeat match goal with |- _ /\ _ => split end; apply flag_bit; reflexivity. }
  destruct P as (p0 & -> & E & P1 & P2 & P3 & P4 & P5 & P6 & P7 & P8). cbn [bind]. rewrite E. cbn [bind]. cbv zeta.
  rewrite P1, P2, P3, P4, P5, P6, P7, P8.
  destruct (flag ts 43); [|reflexivity]. rewrite get_pcr_spec by (assumption || lia). reflexivity.
Qed.

Definition spec_packet (ts : list N) : view :=
  VStruct "TsPacket"
    [("sync", VBool (field ts 0 8 =? 71)%N); ("error", VNum (field ts 8 1)); ("pusi", VBool (flag ts 9)); ("pid", VNum (field ts 11 13));
     ("scrambling", VNum (field ts 24 2)); ("adaptation", spec_adaptation ts); ("payload", VBool (flag ts 27));
     ("cc", VNum (field ts 28 4))].

Lemma view_spec m ts : (12 <= length ts)%nat -> (m = Debug -> 188 <= length ts)%nat -> bytes ts ->
  packet_view m ts = Ok (spec_packet ts).
Proof.
  intros Hl Hm Hb. unfold packet_view, spec_packet.
  rewrite is_sync_spec, is_pusi_spec, get_pid_spec, is_payload_spec, get_cc_spec by (assumption || lia). cbn [bind].
  assert (A : ts_adaptation_new m ts = Ok ts).
  { unfold ts_adaptation_new, dassert. destruct m; [|reflexivity]. destruct (Nat.leb_spec 188 (length ts)) as [_|G]; [reflexivity|]. specialize (Hm eq_refl). lia. }
  assert (P : exists b1 b3, get ts 1 = Ok b1 /\ get ts 3 = Ok b3 /\ N.shiftr (N.land b1 128) 7 = field ts 8 1 /\ N.shiftr (N.land b3 192) 6 = field ts 24 2).
  { clear A Hm. peel ts 4%nat Hl. dbytes. exists b0, b2. split; [reflexivity|]. split; [reflexivity|]. fieldify. split.
    - blast_pre 1%nat; [rewrite N.shiftr_div_pow2; apply N.div_lt_upper_bound; [discriminate|]; apply land_lt_r; reflexivity|apply N_of_bits_lt|..]. all: bool_cases.
    - blast_pre 2%nat; [rewrite N.shiftr_div_pow2; apply N.div_lt_upper_bound; [discriminate|]; apply land_lt_r; reflexivity|apply N_of_bits_lt|..]. all: bool_cases. }
  destruct P as (b1 & b3 & E1 & E3 & <- & <-). rewrite E1, E3. cbn [bind]. rewrite A. cbn [bind]. rewrite adaptation_view_spec by assumption. reflexivity.
Qed.

(** ** strings *)
Lemma sapp_assoc a b c : (a ++ b) ++ c = a ++ (b ++ c).
Proof. induction a as [|x a IH]; [reflexivity|]. cbn [append]. rewrite IH. reflexivity. Qed.
Lemma sapp_nil a : a ++ "" = a.
Proof. induction a as [|x a IH]; [reflexivity|]. cbn [append]. rewrite IH. reflexivity. Qed.

Lemma digits_acc u : forall p, digits (Npos p) (NilEmpty.string_of_uint u) = Some (Npos (Pos.of_uint_acc u p)).
Proof.
  induction u as [|u IH|u IH|u IH|u IH|u IH|u IH|u IH|u IH|u IH|u IH]; intros p; [reflexivity|..].
  all: cbn [NilEmpty.string_of_uint Pos.of_uint_acc digits];
    match goal with |- context [digit ?c] => let d := eval vm_compute in (digit c) in change (digit c) with d end; cbv iota.
  all: match goal with |- digits ?a _ = Some (Npos (Pos.of_uint_acc _ ?q)) => replace a with (Npos q) by lia end; apply IH.
Qed.
Lemma digits_uint u : digits 0 (NilEmpty.string_of_uint u) = Some (Pos.of_uint u).
Proof.
  induction u as [|u IH|u IH|u IH|u IH|u IH|u IH|u IH|u IH|u IH|u IH]; [reflexivity|..].
  all: cbn [NilEmpty.string_of_uint Pos.of_uint digits];
    match goal with |- context [digit ?c] => let d := eval vm_compute in (digit c) in change (digit c) with d end; cbv iota.
  1: exact IH.
  all: apply digits_acc.
Qed.
Lemma to_uint_norm n : N.to_uint n = unorm (N.to_uint n).
Proof. rewrite <- DecimalN.Unsigned.to_of, DecimalN.Unsigned.of_to. reflexivity. Qed.
Lemma nzhead_not_zero u v : nzhead u <> D0 v.
Proof. induction u; cbn [nzhead]; try discriminate. exact IHu. Qed.

Lemma dec_numeral n : numeral (dec n) n.
Proof.
  unfold numeral, dec. assert (Z : N.to_uint n <> Nil).
  { rewrite to_uint_norm. apply unorm_nonnil. }
  assert (E : NilZero.string_of_uint (N.to_uint n) = NilEmpty.string_of_uint (N.to_uint n)).
  { destruct (N.to_uint n); [contradiction|reflexivity..]. }
  rewrite E. split; [|split].
  - destruct (N.to_uint n); [contradiction|discriminate..].
  - rewrite digits_uint. change (Pos.of_uint (N.to_uint n)) with (N.of_uint (N.to_uint n)). rewrite DecimalN.Unsigned.of_to. reflexivity.
  - intros s' H. rewrite to_uint_norm in H. unfold unorm in H. destruct (nzhead (N.to_uint n)) eqn:Z0; try discriminate.
    + injection H as <-. reflexivity.
    + exfalso. exact (nzhead_not_zero _ _ Z0).
Qed.

(** strings of digits, and a string without the character [c] *)
Fixpoint lacks (c : ascii) (s : string) : bool :=
  match s with "" => true | String x s' => negb (Ascii.eqb x c) && lacks c s' end.
Lemma digits_lacks c s : digit c = None -> forall a n, digits a s = Some n -> lacks c s = true.
Proof.
  intros Hc. induction s as [|x s IH]; intros a n H; [reflexivity|]. cbn [digits] in H. destruct (digit x) as [d|] eqn:E; [|discriminate].
  cbn [lacks]. rewrite (IH _ _ H). destruct (Ascii.eqb_spec x c) as [->|]; [congruence|reflexivity].
Qed.
Lemma dec_lacks c n : digit c = None -> lacks c (dec n) = true.
Proof. intros Hc. destruct (dec_numeral n) as (_ & H & _). exact (digits_lacks c _ Hc _ _ H). Qed.
Lemma dec_inj a b : dec a = dec b -> a = b.
Proof. intros H. destruct (dec_numeral a) as (_ & A & _). destruct (dec_numeral b) as (_ & B & _). congruence. Qed.

(** ** the texts *)
Lemma line_spec ts : render false (spec_packet ts) = packet_line dec ts.
Proof.
  unfold spec_packet, packet_line, one_line, before, after, adaptation_line, spec_adaptation, adaptation_fields, one_line.
  destruct (flag ts 26); [destruct (field ts 32 8 =? 0)%N eqn:Z; [|destruct (flag ts 43)]|].
  all: cbn [render field_text finish_text map fst snd app String.concat append]; unfold bool_text, yes_no; repeat (rewrite !sapp_assoc; cbn [append]); reflexivity.
Qed.

Lemma pad_app a b : lacks newline a = true -> pad false (a ++ b) = a ++ pad false b.
Proof.
  induction a as [|x a IH]; intros H; [reflexivity|]. cbn [lacks] in H. apply andb_prop in H as [H1 H2].
  cbn [append pad]. apply negb_true_iff in H1. rewrite H1, (IH H2). reflexivity.
Qed.
Lemma pad_line s r : lacks newline s = true -> s <> "" -> pad true (s ++ nl ++ r) = "    " ++ s ++ nl ++ pad true r.
Proof.
  intros H Z. destruct s as [|c s]; [contradiction|]. cbn [lacks] in H. apply andb_prop in H as [H1 H2]. apply negb_true_iff in H1.
  cbn [append pad]. rewrite H1, pad_app by assumption. reflexivity.
Qed.
Lemma lacks_app c a b : lacks c (a ++ b) = lacks c a && lacks c b.
Proof. induction a as [|x a IH]; [reflexivity|]. cbn [append lacks]. rewrite IH. apply andb_assoc. Qed.

Definition clean (f : string * string) : Prop := lacks newline (fst f) = true /\ lacks newline (snd f) = true /\ fst f <> "".
Lemma lines_cons i f l : lines i (f :: l) = i ++ fst f ++ ": " ++ snd f ++ "," ++ nl ++ lines i l.
Proof.
  unfold lines, eol, nl, newline. cbn [map String.concat]. destruct l as [|g l].
  - cbn [map String.concat]. rewrite !sapp_nil. reflexivity.
  - cbn [map]. rewrite !sapp_assoc. reflexivity.
Qed.
Lemma pad_lines i l r : lacks newline i = true -> Forall clean l -> pad true (lines i l ++ r) = lines ("    " ++ i) l ++ pad true r.
Proof.
  intros Hi. induction 1 as [|[k v] l (H1 & H2 & H3) _ IH]; [reflexivity|]. rewrite !lines_cons. cbn [fst snd] in *.
  replace ((i ++ k ++ ": " ++ v ++ "," ++ nl ++ lines i l) ++ r) with ((i ++ k ++ ": " ++ v ++ ",") ++ nl ++ lines i l ++ r)
    by (rewrite !sapp_assoc; reflexivity).
  rewrite pad_line, IH; [rewrite !sapp_assoc; reflexivity|rewrite !lacks_app, Hi, H1, H2; reflexivity|].
  destruct i; [|discriminate]. destruct k; [contradiction|discriminate].
Qed.
Definition leaf (v : view) : option string :=
  match v with VBool b => Some (bool_text b) | VNum n => Some (dec n) | VStruct _ _ => None end.
Lemma leaf_render alt v s : leaf v = Some s -> render alt v = s /\ lacks newline s = true.
Proof.
  destruct v as [b|n|n l]; intros H; cbn [leaf] in H; try discriminate; injection H as <-; split; try reflexivity; [destruct b; reflexivity|apply dec_lacks; reflexivity].
Qed.
(** the rendered fields *)
Fixpoint go (alt has : bool) (l : list (string * view)) : string :=
  match l with [] => finish_text alt has | (k, x) :: l' => field_text alt has k (render alt x) ++ go alt true l' end.
Lemma render_struct alt n l : render alt (VStruct n l) = n ++ go alt false l.
Proof.
  cbn [render]. f_equal. generalize false. induction l as [|[k x] l IH]; intros h; [reflexivity|]. cbn [go]. rewrite <- IH. reflexivity.
Qed.
Definition shows (f : string * view) (g : string * string) : Prop := fst f = fst g /\ leaf (snd f) = Some (snd g) /\ clean (fst g, "").
Lemma shows_clean f g : shows f g -> clean g.
Proof.
  intros (_ & H & H1 & _ & H3). destruct (leaf_render true (snd f) (snd g) H) as [_ L]. split; [exact H1|]. split; [exact L|exact H3].
Qed.
Lemma go_lines l l' r : Forall2 shows l l' -> go true true (l ++ r)%list = lines "    " l' ++ go true true r.
Proof.
  induction 1 as [|[k v] [k' s] l l' H _ IH]; [reflexivity|]. pose proof (shows_clean _ _ H) as (C1 & C2 & C3). destruct H as (E & H & _).
  cbn [fst snd] in *. subst k'. destruct (leaf_render true v s H) as [R _].
  cbn [app go]. rewrite IH, lines_cons, R. unfold field_text. cbn [fst snd].
  replace (k ++ ": " ++ s ++ "," ++ nl) with ((k ++ ": " ++ s ++ ",") ++ nl ++ "") by (rewrite !sapp_assoc, sapp_nil; reflexivity).
  rewrite pad_line; [cbn [pad]; rewrite !sapp_assoc; reflexivity|rewrite !lacks_app, C1, C2; reflexivity|].
  destruct k; [contradiction|discriminate].
Qed.
Lemma go_first (f : string * view) l : go true false (f :: l) = " {" ++ nl ++ go true true (f :: l).
Proof. destruct f. cbn [go]. unfold field_text. rewrite !sapp_assoc. reflexivity. Qed.

Lemma adaptation_lines ts : field_text true true "adaptation" (render true (spec_adaptation ts)) =
  "    adaptation: " ++
      (if flag ts 26 then "TsAdaptation {" ++ eol ++ lines "        " (adaptation_fields dec ts) ++ "    }" else "false") ++ "," ++ eol.
Proof.
  unfold field_text. unfold spec_adaptation. destruct (flag ts 26) eqn:E26.
  2: { cbn [render bool_text append]. reflexivity. }
  rewrite render_struct, go_first.
  match goal with |- context [go true true ?l] => assert (F : Forall2 shows l (adaptation_fields dec ts)) end.
  { unfold adaptation_fields. change yes_no with bool_text. destruct (field ts 32 8 =? 0)%N; [repeat constructor; discriminate|].
    destruct (flag ts 43); repeat constructor; discriminate. }
  rewrite <- (app_nil_r (_ :: _)), (go_lines _ _ [] F). cbn [go finish_text].
  assert (C : Forall clean (adaptation_fields dec ts)).
  { clear -F. induction F as [|f g l l' H _ IH]; constructor; [exact (shows_clean _ _ H)|assumption]. }
  match goal with |- "" ++ pad true ?x = _ => replace x with ("adaptation: TsAdaptation {" ++ nl ++ lines "    " (adaptation_fields dec ts) ++ "}," ++ nl ++ "")
    by (rewrite !sapp_assoc; reflexivity) end.
  rewrite pad_line by (reflexivity || discriminate). rewrite pad_lines by (reflexivity || assumption).
  rewrite (pad_line "},") by (reflexivity || discriminate). cbn [pad]. rewrite !sapp_assoc. reflexivity.
Qed.

Lemma lines_spec ts : render true (spec_packet ts) = packet_lines dec ts.
Proof.
  unfold spec_packet. rewrite render_struct, go_first.
  assert (B : Forall2 shows [("sync", VBool (field ts 0 8 =? 71)%N); ("error", VNum (field ts 8 1)); ("pusi", VBool (flag ts 9)); ("pid", VNum (field ts 11 13));
     ("scrambling", VNum (field ts 24 2))] (before dec ts)) by (repeat constructor; discriminate).
  assert (A : Forall2 shows [("payload", VBool (flag ts 27)); ("cc", VNum (field ts 28 4))] (after dec ts)) by (repeat constructor; discriminate).
  match goal with |- context [go true true (?a :: ?b :: ?c :: ?d :: ?e :: ?l)] => change (a :: b :: c :: d :: e :: l) with ([a; b; c; d; e] ++ l)%list end.
  rewrite (go_lines _ _ _ B). cbn [go]. 
  match goal with |- context [field_text true true "payload" ?x ++ field_text true true "cc" ?y ++ ?z] =>
    replace (field_text true true "payload" x ++ field_text true true "cc" y ++ z) with (lines "    " (after dec ts) ++ "}") end.
  2: { rewrite <- (app_nil_r [_; _]) in A. change ("}") with (go true true []). rewrite <- (go_lines _ _ [] A). reflexivity. }
  rewrite adaptation_lines. unfold packet_lines. change eol with nl. rewrite !sapp_assoc. reflexivity.
Qed.

(** ** the fields can be read back *)
Lemma cut2 a : forall b c d x y, (forall e, In e [c; d] -> lacks e a = true /\ lacks e b = true) ->
  a ++ String c x = b ++ String d y -> a = b /\ String c x = String d y.
Proof.
  induction a as [|p a IH]; intros [|q b] c d x y L H; cbn [append] in H.
  - auto.
  - injection H as -> _. destruct (L q) as [_ Hb]; [left; reflexivity|]. cbn [lacks] in Hb. rewrite Ascii.eqb_refl in Hb. discriminate.
  - injection H as -> _. destruct (L d) as [Ha _]; [right; left; reflexivity|]. cbn [lacks] in Ha. rewrite Ascii.eqb_refl in Ha. discriminate.
  - injection H as -> H. destruct (IH b c d x y) as [-> E]; [|exact H|auto].
    intros e He. destruct (L e He) as [Ha Hb]. cbn [lacks] in Ha, Hb. apply andb_prop in Ha as [_ Ha]. apply andb_prop in Hb as [_ Hb]. auto.
Qed.
Lemma cut_dec c d a b x y : digit c = None -> digit d = None -> dec a ++ String c x = dec b ++ String d y -> a = b /\ String c x = String d y.
Proof.
  intros Hc Hd H. apply cut2 in H as [H ->].
  - split; [exact (dec_inj _ _ H)|reflexivity].
  - intros e [<-|[<-|[]]]; split; apply dec_lacks; assumption.
Qed.
Lemma cut_bool a b x y : bool_text a ++ x = bool_text b ++ y -> a = b /\ x = y.
Proof. destruct a, b; cbn [bool_text append]; intros H; try discriminate; injection H as ->; auto. Qed.
Lemma flag_field ts k : flag ts k = true -> field ts k 1 = 1.
Proof.
  unfold flag. intros H. pose proof (field_lt ts k 1) as F. change (2 ^ N.of_nat 1) with 2 in F.
  apply negb_true_iff, N.eqb_neq in H. lia.
Qed.

(** everything the view shows *)
Definition same_fields (ts ts' : list N) : Prop :=
  (field ts 0 8 =? 0x47)%N = (field ts' 0 8 =? 0x47)%N /\ field ts 8 1 = field ts' 8 1 /\ flag ts 9 = flag ts' 9 /\
  field ts 11 13 = field ts' 11 13 /\ field ts 24 2 = field ts' 24 2 /\ flag ts 26 = flag ts' 26 /\
  flag ts 27 = flag ts' 27 /\ field ts 28 4 = field ts' 28 4.
Definition same_adaptation (ts ts' : list N) : Prop :=
  field ts 32 8 = field ts' 32 8 /\
  (field ts 32 8 <> 0 ->
   flag ts 40 = flag ts' 40 /\ flag ts 41 = flag ts' 41 /\ flag ts 42 = flag ts' 42 /\ flag ts 43 = flag ts' 43 /\
   flag ts 44 = flag ts' 44 /\ flag ts 45 = flag ts' 45 /\ flag ts 46 = flag ts' 46 /\ flag ts 47 = flag ts' 47 /\
   (flag ts 43 = true -> (field ts 48 33 * 300 + field ts 87 9 = field ts' 48 33 * 300 + field ts' 87 9)%N)).

Ltac drop H :=
  repeat match type of H with String ?a _ = String ?a _ => apply (f_equal (fun s => match s with String _ t => t | "" => "" end)) in H; cbv beta iota in H end.
Ltac next H H' :=
  cbn [append] in H; drop H; rewrite ?sapp_assoc in H; cbn [append] in H;
  first [apply cut_bool in H as [H' H] | apply cut_dec in H as [H' H]; [|reflexivity|reflexivity]].

Lemma line_inj ts ts' : packet_line dec ts = packet_line dec ts' ->
  same_fields ts ts' /\ (flag ts 26 = true -> same_adaptation ts ts').
Proof.
  assert (U : exists tail, (forall ts, packet_line dec ts = "TsPacket { sync: " ++ bool_text (field ts 0 8 =? 0x47)%N ++ ", error: " ++ dec (field ts 8 1) ++
     ", pusi: " ++ bool_text (flag ts 9) ++ ", pid: " ++ dec (field ts 11 13) ++ ", scrambling: " ++ dec (field ts 24 2) ++
     ", adaptation: " ++ adaptation_line dec ts ++ tail ts) /\
     forall ts, tail ts = ", payload: " ++ bool_text (flag ts 27) ++ ", cc: " ++ dec (field ts 28 4) ++ " }").
  { eexists. split; [|intros t; reflexivity].
    intros t. unfold packet_line, one_line, before, after. cbn [app map String.concat fst snd]. change yes_no with bool_text.
    rewrite !sapp_assoc. reflexivity. }
  assert (A : forall ts, adaptation_line dec ts = if flag ts 26 then "TsAdaptation { length: " ++ dec (field ts 32 8) ++
     (if (field ts 32 8 =? 0)%N then " }" else
      ", discontinuity: " ++ bool_text (flag ts 40) ++ ", random_access: " ++ bool_text (flag ts 41) ++ ", es_priority: " ++ bool_text (flag ts 42) ++
      ", PCR_flag: " ++ bool_text (flag ts 43) ++ ", OPCR_flag: " ++ bool_text (flag ts 44) ++ ", splicing_point: " ++ bool_text (flag ts 45) ++
      ", private_data: " ++ bool_text (flag ts 46) ++ ", af_extension: " ++ bool_text (flag ts 47) ++
      (if flag ts 43 then ", pcr: " ++ dec (field ts 48 33 * 300 + field ts 87 9) ++ " }" else " }")) else "false").
  { intros t. unfold adaptation_line, one_line, adaptation_fields. destruct (flag t 26); [|reflexivity]. change yes_no with bool_text.
    destruct (field t 32 8 =? 0)%N; [cbn [app map String.concat fst snd]; rewrite !sapp_assoc; reflexivity|].
    destruct (flag t 43) eqn:E; cbn [app map String.concat fst snd]; rewrite !sapp_assoc; reflexivity. }
  destruct U as (tail & U & V). intros H. rewrite !U in H. clear U.
  next H H1. next H H2. next H H3. next H H4. next H H5.
  cbn [append] in H. drop H.
  assert (T : flag ts 26 = flag ts' 26 /\ (flag ts 26 = true -> same_adaptation ts ts') /\ tail ts = tail ts').
  { clear V. revert H. generalize (tail ts), (tail ts'). intros x y H.
    rewrite !A in H. clear A. destruct (flag ts 26), (flag ts' 26); try (cbn [append] in H; discriminate H).
    2: { cbn [append] in H. drop H. split; [reflexivity|]. split; [discriminate|exact H]. }
    split; [reflexivity|]. unfold same_adaptation. rewrite ?sapp_assoc in H. cbn [append] in H. drop H.
    destruct (field ts 32 8 =? 0)%N eqn:Z, (field ts' 32 8 =? 0)%N eqn:Z'.
    - next H L. drop H. rewrite L. split; [|exact H]. intros _. split; [reflexivity|]. apply N.eqb_eq in Z. congruence.
    - exfalso. next H L. discriminate H.
    - exfalso. next H L. discriminate H.
    - rewrite ?sapp_assoc in H. next H L.
      rewrite ?sapp_assoc in H. next H G1. rewrite ?sapp_assoc in H. next H G2. rewrite ?sapp_assoc in H. next H G3. rewrite ?sapp_assoc in H. next H G4.
      rewrite ?sapp_assoc in H. next H G5. rewrite ?sapp_assoc in H. next H G6. rewrite ?sapp_assoc in H. next H G7. rewrite ?sapp_assoc in H. next H G8.
      rewrite <- G4 in H. destruct (flag ts 43) eqn:E43.
      + rewrite ?sapp_assoc in H. next H G9. drop H. split; [|exact H]. intros _. split; [exact L|]. intros _. rewrite <- G4. auto 12.
      + cbn [append] in H. drop H. split; [|exact H]. intros _. split; [exact L|]. intros _. rewrite <- G4.
        repeat (split; [assumption || reflexivity|]). discriminate. }
  destruct T as (T1 & T2 & T3). rewrite !V in T3. next T3 K1. next T3 K2.
  split; [|exact T2]. unfold same_fields. auto 12.
Qed.

Lemma text_spec m ts : (match m with Debug => 188 | Release => 12 end <= length ts)%nat -> bytes ts ->
  packet_text m false ts = Ok (packet_line dec ts) /\ packet_text m true ts = Ok (packet_lines dec ts).
Proof.
  intros L B. unfold packet_text, ts_packet_new.
  assert (A : dassert m (188 <=? length ts)%nat = Ok tt) by (destruct m; [cbn [dassert]; rewrite (proj2 (Nat.leb_le _ _) L)|]; reflexivity).
  rewrite A. cbn [bind]. rewrite view_spec; [|destruct m; lia|intros ->; exact L|exact B]. cbn [bind].
  rewrite line_spec, lines_spec. auto.
Qed.
Lemma adaptation_text_spec m ts : (match m with Debug => 188 | Release => 12 end <= length ts)%nat -> bytes ts ->
  adaptation_text m false ts = Ok (adaptation_line dec ts).
Proof.
  intros L B. unfold adaptation_text, ts_adaptation_new.
  assert (A : dassert m (188 <=? length ts)%nat = Ok tt) by (destruct m; [cbn [dassert]; rewrite (proj2 (Nat.leb_le _ _) L)|]; reflexivity).
  rewrite A. cbn [bind]. rewrite adaptation_view_spec by (assumption || destruct m; lia). cbn [bind]. f_equal.
  unfold spec_adaptation, adaptation_line, one_line, adaptation_fields. destruct (flag ts 26); [|reflexivity].
  destruct (field ts 32 8 =? 0)%N; [|destruct (flag ts 43)].
  all: cbn [render field_text finish_text map fst snd app String.concat append]; unfold bool_text, yes_no; repeat (rewrite !sapp_assoc; cbn [append]); reflexivity.
Qed.
Lemma text_short alt ts : ((length ts < 188)%nat -> packet_text Debug alt ts = Panic /\ adaptation_text Debug alt ts = Panic) /\
  ((length ts < 4)%nat -> packet_text Release alt ts = Panic /\ adaptation_text Release alt ts = Panic).
Proof.
  split; intros H.
  - unfold packet_text, adaptation_text, ts_packet_new, ts_adaptation_new, dassert.
    destruct (Nat.leb_spec 188 (length ts)); [lia|]. split; reflexivity.
  - destruct ts as [|a [|b [|c [|d ts]]]]; try (split; reflexivity). cbn [length] in H. lia.
Qed.
