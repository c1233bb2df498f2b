(** Proofs about the TS header, PCR (M_ts). *)
From Verif Require Import Prelude Layout Facts S_ts M_ts M_pes.

Ltac dbytes :=
  repeat match goal with
  | H : bytes (_ :: _) |- _ => apply bytes_cons in H; destruct H
  end.

(** split off [n] leading elements of list [l] with [H : n <= length l] *)
Ltac peel l n H :=
  match n with
  | O => idtac
  | S ?n' => let b := fresh "b" in
             destruct l as [|b l]; [cbn [length] in H; lia|]; peel l n' H
  end.

Ltac fieldify :=
  unfold flag, field;
  cbn [unpack flat_map app bits_of firstn skipn]; fold_nat_lits.

Lemma flag_bit (b k : N) (mask : N) : mask = 2 ^ k ->
  negb (N.land b mask =? 0) = negb (N_of_bits [N.testbit b k] =? 0).
Proof.
  intros ->. change (N_of_bits [N.testbit b k]) with (2 * 0 + N.b2n (N.testbit b k)).
  f_equal. destruct (N.testbit b k) eqn:E; cbn [N.b2n].
  - change (2 * 0 + 1 =? 0) with false. apply N.eqb_neq. intros H.
    assert (T : N.testbit (N.land b (2 ^ k)) k = true).
    { rewrite N.land_spec, E, N.pow2_bits_true. reflexivity. }
    rewrite H, N.bits_0 in T. discriminate.
  - change (2 * 0 + 0 =? 0) with true. apply N.eqb_eq. apply N.bits_inj_0. intros i.
    rewrite N.land_spec. destruct (N.eq_dec i k) as [->|Hi].
    + rewrite E. reflexivity.
    + rewrite N.pow2_bits_false by congruence. apply andb_false_r.
Qed.

Lemma two_bits (b k : N) (mask : N) : mask = N.lor (2 ^ (k + 1)) (2 ^ k) ->
  (N.land b mask =? 0) = (N_of_bits [N.testbit b (k + 1); N.testbit b k] =? 0).
Proof.
  intros ->. rewrite N.land_lor_distr_r.
  pose proof (flag_bit b (k + 1) _ eq_refl) as H1. pose proof (flag_bit b k _ eq_refl) as H2.
  unfold N_of_bits in *. cbn [fold_left] in *.
  destruct (N.testbit b (k + 1)), (N.testbit b k); cbn [N.b2n] in *;
  repeat match goal with H : negb _ = negb (?c) |- _ =>
     let r := eval vm_compute in c in change c with r in H; cbn [negb] in H end.
  all: repeat match goal with
    | H : negb _ = true |- _ => apply negb_true_iff in H
    | H : negb _ = false |- _ => apply negb_false_iff in H
    | H : (_ =? 0) = true |- _ => apply N.eqb_eq in H; rewrite H
    | H : (_ =? 0) = false |- _ => apply N.eqb_neq in H
    end.
  all: rewrite ?N.lor_0_l, ?N.lor_0_r; try reflexivity.
  all: apply N.eqb_neq; try assumption.
  intros E. apply N.lor_eq_0_iff in E. tauto.
Qed.

(** ** header getters *)
Lemma is_sync_spec ts : (1 <= length ts)%nat -> bytes ts ->
  is_sync ts = Ok (field ts 0 8 =? 71).
Proof.
  intros Hl Hb. peel ts 1%nat Hl. dbytes. unfold is_sync. cbn [get nth_error bind].
  change (get (b :: ts) 0) with (Ok b). cbn [bind].
  replace (field (b :: ts) 0 8) with b; [reflexivity|].
  change (b = N_of_bits (bits_of 8 b)). rewrite bits_of_small by assumption. reflexivity.
Qed.

Lemma is_error_spec ts : (2 <= length ts)%nat -> is_error ts = Ok (flag ts 8).
Proof.
  intros Hl. peel ts 2%nat Hl. unfold is_error. cbn [get nth_error bind].
  fieldify. f_equal. apply flag_bit. reflexivity.
Qed.

Lemma is_pusi_spec ts : (2 <= length ts)%nat -> is_pusi ts = Ok (flag ts 9).
Proof.
  intros Hl. peel ts 2%nat Hl. unfold is_pusi. cbn [get nth_error bind].
  fieldify. f_equal. apply flag_bit. reflexivity.
Qed.

Lemma is_payload_spec ts : (4 <= length ts)%nat -> is_payload ts = Ok (flag ts 27).
Proof.
  intros Hl. peel ts 4%nat Hl. unfold is_payload. cbn [get nth_error bind].
  fieldify. f_equal. apply flag_bit. reflexivity.
Qed.

Lemma is_adaptation_spec ts : (4 <= length ts)%nat -> is_adaptation ts = Ok (flag ts 26).
Proof.
  intros Hl. peel ts 4%nat Hl. unfold is_adaptation. cbn [get nth_error bind].
  fieldify. f_equal. apply flag_bit. reflexivity.
Qed.

Lemma is_scrambled_spec ts : (4 <= length ts)%nat ->
  is_scrambled ts = Ok (negb (field ts 24 2 =? 0)).
Proof.
  intros Hl. peel ts 4%nat Hl. unfold is_scrambled. cbn [get nth_error bind].
  fieldify. f_equal. f_equal. exact (two_bits b2 6 192 eq_refl).
Qed.

Lemma get_pid_spec ts : (3 <= length ts)%nat -> bytes ts -> get_pid ts = Ok (field ts 11 13).
Proof.
  intros Hl Hb. peel ts 3%nat Hl. dbytes. unfold get_pid. cbn [get nth_error bind].
  fieldify. f_equal. unfold shlw, U16. blast_pre 16%nat.
  { apply (lor_lt 16); [apply N.mod_lt; lia|]. change (2 ^ 16) with 65536. lia. }
  { eapply N.lt_trans; [apply N_of_bits_lt|]. reflexivity. }
  all: bool_cases.
Qed.

Lemma get_cc_spec ts : (4 <= length ts)%nat -> bytes ts -> get_cc ts = Ok (field ts 28 4).
Proof.
  intros Hl Hb. peel ts 4%nat Hl. dbytes. unfold get_cc. cbn [get nth_error bind].
  fieldify. f_equal. blast_pre 4%nat.
  { apply land_lt_r. reflexivity. }
  { apply N_of_bits_lt. }
  all: bool_cases.
Qed.

Lemma get_adaptation_size_spec ts : (5 <= length ts)%nat -> bytes ts ->
  get_adaptation_size ts = Ok (field ts 32 8).
Proof.
  intros Hl Hb. peel ts 5%nat Hl. dbytes. unfold get_adaptation_size. cbn [get nth_error].
  f_equal. change (b3 = N_of_bits (bits_of 8 b3)). rewrite bits_of_small by assumption. reflexivity.
Qed.

(** ** header setters *)
Ltac byte_eq :=
  blast_pre 8%nat;
  [ try (repeat first [apply (lor_lt 8) | apply land_lt_l; apply N_of_bits_lt | apply N_of_bits_lt
                      | apply land_lt_r; reflexivity | apply N.mod_lt; discriminate | reflexivity ])
  | apply N_of_bits_lt | .. ];
  try bool_cases.

Ltac header_setter :=
  unfold ts_header, layout; cbn [field_bits flat_map fst snd bits_of app pack_bits]; fold_nat_lits;
  cbn [get set nth_error bind Nat.ltb Nat.leb length firstn skipn app];
  unfold cast, U8.

Ltac list_eq := repeat match goal with
  | |- Ok _ = Ok _ => apply f_equal
  | |- _ :: _ = _ :: _ => apply f_equal2; [try reflexivity|] end; try reflexivity.

Lemma set_pid_spec m sync tei pusi prio pid tsc af pl cc rest v : v < 8192 ->
  set_pid m (ts_header sync tei pusi prio pid tsc af pl cc ++ rest) v
  = Ok (ts_header sync tei pusi prio v tsc af pl cc ++ rest).
Proof.
  intros Hv. unfold set_pid.
  replace (dassert m (v <? 8192)) with (Ok tt)
    by (apply N.ltb_lt in Hv; rewrite Hv; destruct m; reflexivity).
  header_setter. list_eq; byte_eq.
Qed.

Lemma set_cc_spec m sync tei pusi prio pid tsc af pl cc rest v : v < 16 ->
  set_cc m (ts_header sync tei pusi prio pid tsc af pl cc ++ rest) v
  = Ok (ts_header sync tei pusi prio pid tsc af pl v ++ rest).
Proof.
  intros Hv. unfold set_cc.
  replace (dassert m (v <? 16)) with (Ok tt)
    by (apply N.ltb_lt in Hv; rewrite Hv; destruct m; reflexivity).
  header_setter. list_eq; byte_eq.
Qed.

Lemma set_payload_0_spec sync tei pusi prio pid tsc af pl cc rest :
  set_payload_0 (ts_header sync tei pusi prio pid tsc af pl cc ++ rest)
  = Ok (ts_header sync tei pusi prio pid tsc af 0 cc ++ rest).
Proof. unfold set_payload_0. header_setter. list_eq; byte_eq. Qed.

Lemma set_payload_1_spec sync tei pusi prio pid tsc af pl cc rest :
  set_payload_1 (ts_header sync tei pusi prio pid tsc af pl cc ++ rest)
  = Ok (ts_header sync tei pusi prio pid tsc af 1 cc ++ rest).
Proof. unfold set_payload_1. header_setter. list_eq; byte_eq. Qed.

Lemma set_pusi_0_spec sync tei pusi prio pid tsc af pl cc rest :
  set_pusi_0 (ts_header sync tei pusi prio pid tsc af pl cc ++ rest)
  = Ok (ts_header sync tei 0 prio pid tsc af pl cc ++ rest).
Proof. unfold set_pusi_0. header_setter. list_eq; byte_eq. Qed.

Lemma set_pusi_1_spec sync tei pusi prio pid tsc af pl cc rest :
  set_pusi_1 (ts_header sync tei pusi prio pid tsc af pl cc ++ rest)
  = Ok (ts_header sync tei 1 prio pid tsc af pl cc ++ rest).
Proof. unfold set_pusi_1. header_setter. list_eq; byte_eq. Qed.

(** every packet of at least 4 bytes is a header table followed by a rest *)
Lemma ts_header_complete ts : (4 <= length ts)%nat -> bytes ts ->
  ts = ts_header (field ts 0 8) (field ts 8 1) (field ts 9 1) (field ts 10 1) (field ts 11 13)
                 (field ts 24 2) (field ts 26 1) (field ts 27 1) (field ts 28 4) ++ skipn 4 ts.
Proof.
  intros Hl Hb. peel ts 4%nat Hl. dbytes.
  unfold field. cbn [unpack flat_map app bits_of firstn skipn]. fold_nat_lits.
  unfold ts_header, layout. cbn [field_bits flat_map fst snd bits_of app pack_bits]. fold_nat_lits.
  tbs. fold_nat_lits.
  repeat match goal with
  | |- ?x :: _ = _ :: _ => apply f_equal2;
       [change (N_of_bits [N.testbit x 7; N.testbit x 6; N.testbit x 5; N.testbit x 4;
                           N.testbit x 3; N.testbit x 2; N.testbit x 1; N.testbit x 0])
          with (N_of_bits (bits_of 8 x)); rewrite bits_of_small by assumption; reflexivity|]
  end.
  reflexivity.
Qed.

Lemma getters_panic ts :
  (is_sync ts = Panic <-> (length ts < 1)%nat) /\
  (is_error ts = Panic <-> (length ts < 2)%nat) /\
  (is_pusi ts = Panic <-> (length ts < 2)%nat) /\
  (get_pid ts = Panic <-> (length ts < 3)%nat) /\
  (is_scrambled ts = Panic <-> (length ts < 4)%nat) /\
  (is_adaptation ts = Panic <-> (length ts < 4)%nat) /\
  (is_payload ts = Panic <-> (length ts < 4)%nat) /\
  (get_cc ts = Panic <-> (length ts < 4)%nat).
Proof.
  unfold is_sync, is_error, is_pusi, get_pid, is_scrambled, is_adaptation, is_payload, get_cc, get.
  destruct ts as [|b0 [|b1 [|b2 [|b3 ts]]]];
  cbn [nth_error bind length];
  repeat split; intros H; try discriminate; try reflexivity; try lia.
Qed.

(** ** payload offset *)
Lemma payload_offset_spec m ts : (5 <= length ts)%nat -> bytes ts ->
  get_payload_offset m ts =
    if flag ts 26
    then if field ts 32 8 <=? 250 then Ok (5 + field ts 32 8)
         else match m with Debug => Panic | Release => Ok (field ts 32 8 - 251) end
    else Ok 4.
Proof.
  intros Hl Hb. unfold get_payload_offset.
  rewrite is_adaptation_spec by lia. cbn [bind].
  destruct (flag ts 26); cbn [negb]; [|reflexivity].
  rewrite get_adaptation_size_spec by assumption. cbn [bind].
  pose proof (field_lt ts 32 8) as Hf. change (2 ^ N.of_nat 8) with 256 in Hf.
  unfold addw, U8. destruct (N.leb_spec (field ts 32 8) 250), (N.ltb_spec (5 + field ts 32 8) 256);
    try lia; [reflexivity|].
  destruct m; [reflexivity|]. f_equal. dlia.
Qed.

(** without adaptation field the adaptation length byte is not needed *)
Lemma payload_offset_short m ts : (4 <= length ts)%nat -> flag ts 26 = false ->
  get_payload_offset m ts = Ok 4.
Proof.
  intros Hl Hf. unfold get_payload_offset. rewrite is_adaptation_spec by lia. cbn [bind].
  rewrite Hf. reflexivity.
Qed.

(** ** PCR *)
Lemma set_pcr_spec p pcr : (12 <= length p)%nat ->
  set_pcr p pcr = Ok (firstn 6 p ++ pcr_bytes (pcr / 300) 63 (pcr mod 300) ++ skipn 12 p).
Proof.
  intros Hl. peel p 12%nat Hl. unfold set_pcr.
  generalize (pcr / 300) (pcr mod 300). intros base ext.
  unfold pcr_bytes, layout. cbn [field_bits flat_map fst snd bits_of app pack_bits]; fold_nat_lits.
  cbn [get set nth_error bind Nat.ltb Nat.leb length firstn skipn app].
  unfold cast, shlw, U8, U64. list_eq; byte_eq.
Qed.

Lemma set_pcr_panic p pcr : (length p < 12)%nat -> set_pcr p pcr = Panic.
Proof.
  intros Hl. unfold set_pcr.
  do 12 (destruct p as [|? p]; [reflexivity|]). cbn [length] in Hl. lia.
Qed.

Lemma shlw64_lt a k j : a < 2 ^ j -> (j + k <=? 64) = true -> shlw U64 a k = N.shiftl a k.
Proof.
  intros Ha Hk. unfold shlw. apply N.mod_small. exact (shiftl_lt_pow a k 64 j Ha Hk).
Qed.

Lemma get_pcr_spec m p : (12 <= length p)%nat -> bytes p ->
  get_pcr m p = Ok (field p 48 33 * 300 + field p 87 9).
Proof.
  intros Hl Hb. peel p 12%nat Hl. dbytes. unfold get_pcr. cbn [get nth_error bind].
  pose proof (field_lt (b :: b0 :: b1 :: b2 :: b3 :: b4 :: b5 :: b6 :: b7 :: b8 :: b9 :: b10 :: p) 48 33) as F1.
  pose proof (field_lt (b :: b0 :: b1 :: b2 :: b3 :: b4 :: b5 :: b6 :: b7 :: b8 :: b9 :: b10 :: p) 87 9) as F2.
  change (2 ^ N.of_nat 33) with 8589934592 in F1. change (2 ^ N.of_nat 9) with 512 in F2.
  match goal with |- bind (mulw _ _ ?x _) _ = Ok (?f * 300 + ?g) => replace x with f end.
  2: { fieldify. blast_pre 33%nat.
       { apply N_of_bits_lt. }
       { rewrite !(shlw64_lt _ _ 8) by (assumption || reflexivity).
         repeat apply (lor_lt 33);
           first [apply (shiftl_lt_pow _ _ 33 8); [assumption|reflexivity]
                 | apply shiftr_lt; change (2 ^ 33) with 8589934592; lia]. }
       all: unfold shlw, U64; bool_cases. }
  match goal with |- context [addw _ _ _ (N.lor ?x ?y)] => replace (N.lor x y) with
     (field (b :: b0 :: b1 :: b2 :: b3 :: b4 :: b5 :: b6 :: b7 :: b8 :: b9 :: b10 :: p) 87 9) end.
  2: { fieldify. blast_pre 9%nat.
       { apply N_of_bits_lt. }
       { apply (lor_lt 9); [|change (2 ^ 9) with 512; lia].
         rewrite (shlw64_lt _ _ 1) by (first [apply land_lt_r; reflexivity | reflexivity]).
         apply (shiftl_lt_pow _ _ 9 1); [apply land_lt_r|]; reflexivity. }
       all: unfold shlw, U64; bool_cases. }
  unfold U64. rewrite mulw_ok by lia. cbn [bind]. apply addw_ok. lia.
Qed.

Lemma get_pcr_panic m p : (length p < 12)%nat -> get_pcr m p = Panic.
Proof.
  intros Hl. unfold get_pcr.
  do 12 (destruct p as [|? p]; [reflexivity|]). cbn [length] in Hl. lia.
Qed.

Lemma pcr_bytes_length b r e : length (pcr_bytes b r e) = 6%nat.
Proof. reflexivity. Qed.

Lemma pcr_bytes_base b r e l : field (pcr_bytes b r e ++ l) 0 33 = b mod 2 ^ 33.
Proof. exact (field_layout [] 33 b [(6%nat, r); (9%nat, e)] l eq_refl). Qed.
Lemma pcr_bytes_ext b r e l : field (pcr_bytes b r e ++ l) 39 9 = e mod 2 ^ 9.
Proof. exact (field_layout [(33%nat, b); (6%nat, r)] 9 e [] l eq_refl). Qed.

Lemma pcr_roundtrip m p pcr : (12 <= length p)%nat -> bytes p -> pcr <= PCR_MAX ->
  (q <- set_pcr p pcr ;; get_pcr m q) = Ok pcr.
Proof.
  intros Hl Hb Hp. change PCR_MAX with 2576980377599 in Hp.
  rewrite set_pcr_spec by assumption. cbn [bind].
  assert (L6 : length (firstn 6 p) = 6%nat) by (rewrite firstn_length; lia).
  rewrite get_pcr_spec.
  - change 87%nat with (8 * 6 + 39)%nat. rewrite (field_app_n 6) by exact L6. rewrite pcr_bytes_ext.
    change 48%nat with (8 * 6 + 0)%nat. rewrite (field_app_n 6) by exact L6. rewrite pcr_bytes_base.
    change (2 ^ 33) with 8589934592. change (2 ^ 9) with 512. f_equal.
    rewrite (N.mod_small (pcr / 300)) by dlia. rewrite (N.mod_small (pcr mod 300)) by dlia. dlia.
  - rewrite !app_length, L6, pcr_bytes_length, skipn_length. lia.
  - apply bytes_app. split; [apply bytes_firstn; assumption|].
    apply bytes_app. split; [apply layout_bytes | apply bytes_skipn; assumption].
Qed.

Lemma is_pcr_spec p : (6 <= length p)%nat -> bytes p ->
  is_pcr p = Ok (flag p 26 && (7 <=? field p 32 8) && flag p 43).
Proof.
  intros Hl Hb. unfold is_pcr. rewrite is_adaptation_spec by lia. cbn [bind].
  destruct (flag p 26); cbn [negb andb]; [|reflexivity].
  rewrite get_adaptation_size_spec by (try assumption; lia). cbn [bind].
  destruct (7 <=? field p 32 8); cbn [negb andb]; [|reflexivity].
  peel p 6%nat Hl. cbn [get nth_error bind]. fieldify. f_equal. apply flag_bit. reflexivity.
Qed.

