(** Specification of descriptors: the syntax tables of ISO/IEC 13818-1 clause 2.6,
    EN 300 468 clause 6.2 and (0x83) the HD-Book DTT, written with [layout] and [field]. *)
From Verif Require Import Prelude Layout S_utils S_text M_text M_desc.

(** tag, length, body *)
Definition tlv (tag : N) (body : list N) : list N := tag :: N.of_nat (length body) :: body.

(** a text on the wire, and a text behind a length byte *)
Definition text (t : dvb) : list N := match t_data t with [] => [] | _ => selector (t_cp t) ++ t_data t end.
Definition sized (t : dvb) : list N := N.of_nat (length (text t)) :: text t.
(** the text read from wire bytes: a first byte below 0x20 selects the code page *)
Definition text_read (b : list N) : dvb :=
  match b with
  | [] => mkDvb 0 []
  | x :: d =>
    if x =? 21 then mkDvb 21 d
    else if 0x20 <=? x then mkDvb 0 b
    else if x <? 0x10 then mkDvb (x + 4) d
    else match d with
         | _ :: z :: d' => if x =? 0x10 then mkDvb z d' else mkDvb 0 [63]
         | _ => mkDvb 0 [63]
         end
  end.

(** symbol rate on the wire: seven digits, unit 100 symbol/s; the structs hold ksymbol/s *)
Definition rate7 (r : N) : N := dec_nibs 7 (10 * r).

(** ** what is sent *)
Definition item_0A (i : d_0Ai) : list N := text (d0A_code i) ++ layout [(8%nat, d0A_type i)].
Definition item_41 (i : d_41i) : list N := layout [(16%nat, d41_sid i); (8%nat, d41_type i)].
Definition item_4E (i : dvb * dvb) : list N := sized (fst i) ++ sized (snd i).
Definition item_58 (i : d_58i) : list N :=
  text (d58_code i) ++
  layout [(6%nat, d58_region i); (1%nat, 1); (1%nat, d58_pol i);
          (16%nat, hm (d58_offset i / 60) (d58_offset i mod 60));
          (16%nat, MJD_EPOCH + d58_time i / 86400);
          (24%nat, hms (d58_time i / 3600 mod 24) (d58_time i / 60 mod 60) (d58_time i mod 60));
          (16%nat, hm (d58_next i / 60) (d58_next i mod 60))].
Definition item_83 (i : d_83i) : list N :=
  layout [(16%nat, d83_sid i); (1%nat, d83_visible i); (5%nat, 31); (10%nat, d83_lcn i)].

Definition body (d : desc) : list N :=
  match d with
  | D09 d => layout [(16%nat, d09_caid d); (3%nat, 7); (13%nat, d09_pid d)] ++ d09_data d
  | D0A items => flat_map item_0A items
  | D0E d => layout [(2%nat, 3); (22%nat, d0E_bitrate d)]
  | D40 name => text name
  | D41 items => flat_map item_41 items
  | D43 d => layout [(32%nat, dec_nibs 8 (d43_freq d / 10)); (16%nat, dec_nibs 4 (d43_orbital d / 6));
                     (1%nat, d43_we d); (2%nat, d43_pol d); (2%nat, d43_rof d); (1%nat, d43_s2 d); (2%nat, d43_mod d);
                     (28%nat, rate7 (d43_rate d)); (4%nat, d43_fec d)]
  | D44 d => layout [(32%nat, dec_nibs 8 (d44_freq d / 100)); (12%nat, 0xFFF); (4%nat, d44_outer d); (8%nat, d44_mod d);
                     (28%nat, rate7 (d44_rate d)); (4%nat, d44_fec d)]
  | D48 d => layout [(8%nat, d48_type d)] ++ sized (d48_provider d) ++ sized (d48_name d)
  | D4D d => text (d4D_lang d) ++ sized (d4D_name d) ++ sized (d4D_text d)
  | D4E d => layout [(4%nat, d4E_num d); (4%nat, d4E_last d)] ++ text (d4E_lang d) ++
             [N.of_nat (length (flat_map item_4E (d4E_items d)))] ++ flat_map item_4E (d4E_items d) ++ sized (d4E_text d)
  | D52 t => [t]
  | D58 items => flat_map item_58 items
  | D5A d => layout [(32%nat, d5A_freq d / 10); (3%nat, d5A_bw d); (1%nat, d5A_prio d); (1%nat, d5A_ts d);
                     (1%nat, d5A_fec d); (2%nat, 3); (2%nat, d5A_mod d); (3%nat, d5A_hier d); (3%nat, d5A_hp d);
                     (3%nat, d5A_lp d); (2%nat, d5A_guard d); (2%nat, d5A_trans d); (1%nat, d5A_other d);
                     (32%nat, 0xFFFFFFFF)]
  | D83 items => flat_map item_83 items
  | DRaw d => raw_data d
  end.

(** ** ranges *)
Definition text_ok (t : dvb) : Prop := t_cp t < 256 /\ bytes (t_data t).
(** a text that fills a three-byte language or country code *)
Definition code_ok (t : dvb) : Prop := text_ok t /\ length (text t) = 3%nat.
Definition ok_58i (i : d_58i) : Prop :=
  code_ok (d58_code i) /\ d58_region i < 2 ^ 6 /\ d58_pol i < 2 /\ d58_offset i < 1440 /\ d58_time i < MJD_END /\
  d58_next i < 1440.

(** the fields fit their widths on the wire *)
Definition fields_ok (d : desc) : Prop :=
  match d with
  | D09 d => d09_caid d < 2 ^ 16 /\ d09_pid d < 2 ^ 13 /\ bytes (d09_data d)
  | D0A items => Forall (fun i => code_ok (d0A_code i) /\ d0A_type i < 2 ^ 8) items
  | D0E d => d0E_bitrate d < 2 ^ 22
  | D40 name => text_ok name
  | D41 items => Forall (fun i => d41_sid i < 2 ^ 16 /\ d41_type i < 2 ^ 8) items
  | D43 d => d43_freq d < 10 ^ 9 /\ d43_orbital d < 60000 /\ d43_we d < 2 /\ d43_pol d < 4 /\ d43_rof d < 4 /\
             d43_s2 d < 2 /\ d43_mod d < 4 /\ d43_rate d < 10 ^ 6 /\ d43_fec d < 2 ^ 4
  | D44 d => d44_freq d < 2 ^ 32 /\ d44_outer d < 2 ^ 4 /\ d44_mod d < 2 ^ 8 /\ d44_rate d < 10 ^ 6 /\ d44_fec d < 2 ^ 4
  | D48 d => d48_type d < 2 ^ 8 /\ text_ok (d48_provider d) /\ text_ok (d48_name d)
  | D4D d => code_ok (d4D_lang d) /\ text_ok (d4D_name d) /\ text_ok (d4D_text d)
  | D4E d => d4E_num d < 2 ^ 4 /\ d4E_last d < 2 ^ 4 /\ code_ok (d4E_lang d) /\
             Forall (fun i => text_ok (fst i) /\ text_ok (snd i)) (d4E_items d) /\ text_ok (d4E_text d)
  | D52 t => t < 2 ^ 8
  | D58 items => Forall ok_58i items
  | D5A d => d5A_freq d < 2 ^ 32 /\ d5A_bw d < 8 /\ d5A_prio d < 2 /\ d5A_ts d < 2 /\ d5A_fec d < 2 /\ d5A_mod d < 4 /\
             d5A_hier d < 8 /\ d5A_hp d < 8 /\ d5A_lp d < 8 /\ d5A_guard d < 4 /\ d5A_trans d < 4 /\ d5A_other d < 2
  | D83 items => Forall (fun i => d83_sid i < 2 ^ 16 /\ d83_visible i < 2 /\ d83_lcn i < 2 ^ 10) items
  | DRaw d => raw_tag d < 2 ^ 8 /\ bytes (raw_data d)
  end.

(** the extended event descriptor is written correctly only without items *)
Definition no_items (d : desc) : Prop := match d with D4E d => d4E_items d = [] | _ => True end.

(** descriptors that fit their one-byte length *)
Definition desc_ok (d : desc) : Prop := fields_ok d /\ (length (body d) < 256)%nat /\ no_items d.

Definition supported : list N := [0x09; 0x0A; 0x0E; 0x40; 0x41; 0x43; 0x44; 0x48; 0x4D; 0x4E; 0x52; 0x58; 0x5A; 0x83].

(** ** what is read *)
(** [n] groups of [k] bytes *)
Fixpoint groups (k n : nat) (l : list N) : list (list N) :=
  match n with O => [] | S n' => firstn k l :: groups k n' (skipn k l) end.
Definition all_groups (k : nat) (l : list N) : list (list N) := groups k (length l / k) l.

Definition read_0A (g : list N) : d_0Ai := mk0Ai (text_read (firstn 3 g)) (field g 24 8).
Definition read_41 (g : list N) : d_41i := mk41i (field g 0 16) (field g 16 8).
(** minutes of a packed HHMM, seconds of a packed HHMMSS *)
Definition minutes (v : N) : N := 60 * nib_value 2 (v / 256) + nib_value 2 v.
Definition seconds (v : N) : N := 3600 * nib_value 2 (v / 65536) + 60 * nib_value 2 (v / 256) + nib_value 2 v.
Definition read_58 (g : list N) : d_58i :=
  mk58i (text_read (firstn 3 g)) (field g 24 6) (field g 31 1) (minutes (field g 32 16))
    ((field g 48 16 - MJD_EPOCH) * 86400 + seconds (field g 64 24)) (minutes (field g 88 16)).
Definition read_83 (g : list N) : d_83i := mk83i (field g 0 16) (field g 16 1) (field g 22 10).

(** text behind the length byte at offset [i] of the body *)
Definition len_at (b : list N) (i : nat) : nat := N.to_nat (nth i b 0).
Definition text_at (b : list N) (i : nat) : dvb := text_read (firstn (len_at b i) (skipn (S i) b)).

(** descriptors that are not interpreted: other tags, and bodies that do not suit the type by
    their length; the position of an inner length still has to be inside the body *)
Definition left_raw (t : N) (b : list N) : Prop :=
  match t with
  | 0x09 => (length b < 4)%nat
  | 0x0A => (length b mod 4 <> 0)%nat
  | 0x0E => length b <> 3%nat
  | 0x40 => False
  | 0x41 => (length b mod 3 <> 0)%nat
  | 0x43 | 0x44 | 0x5A => length b <> 11%nat
  | 0x48 => (length b < 3 \/ (2 + len_at b 1 < length b /\ length b <> 3 + len_at b 1 + len_at b (2 + len_at b 1)))%nat
  | 0x4D => (length b < 5 \/ (4 + len_at b 3 < length b /\ length b <> 5 + len_at b 3 + len_at b (4 + len_at b 3)))%nat
  | 0x4E => (length b < 6 \/ (5 + len_at b 4 < length b /\ length b <> 6 + len_at b 4 + len_at b (5 + len_at b 4)))%nat
  | 0x52 => length b <> 1%nat
  | 0x58 => (length b mod 13 <> 0)%nat
  | 0x83 => (length b mod 4 <> 0)%nat
  | _ => True
  end.

(** ... and that come back as they were: values that are multiples of the wire unit, texts
    that keep their code page, time offsets below five hours (see C17), raw descriptors
    only if they are left raw *)
Definition reread (t : dvb) : Prop := rereadable (t_cp t) (t_data t).
Definition exact (d : desc) : Prop :=
  match d with
  | D0A items => Forall (fun i => reread (d0A_code i)) items
  | D40 name => reread name
  | D43 d => d43_freq d mod 10 = 0 /\ d43_orbital d mod 6 = 0
  | D44 d => d44_freq d mod 100 = 0
  | D48 d => reread (d48_provider d) /\ reread (d48_name d)
  | D4D d => reread (d4D_lang d) /\ reread (d4D_name d) /\ reread (d4D_text d)
  | D4E d => reread (d4E_lang d) /\ reread (d4E_text d)
  | D58 items => Forall (fun i => reread (d58_code i) /\ d58_offset i < 300 /\ d58_next i < 300) items
  | D5A d => d5A_freq d mod 10 = 0
  | DRaw d => left_raw (raw_tag d) (raw_data d)
  | _ => True
  end.

(** the item loop of an extended event: [n] bytes of items at the front of [l]; the last
    item may reach beyond them *)
Inductive items_read : nat -> list N -> list (dvb * dvb) -> Prop :=
| items_end l : items_read 0 l []
| items_more n x y l items :
    items_read (n - (2 + length x + length y)) l items ->
    (0 < n)%nat ->
    items_read n ((N.of_nat (length x) :: x) ++ (N.of_nat (length y) :: y) ++ l) ((text_read x, text_read y) :: items).

(** [reads tag b d]: a descriptor with this tag and body is read as [d] *)
Inductive reads (b : list N) : N -> desc -> Prop :=
| r09 : (4 <= length b)%nat -> reads b 0x09 (D09 (mk09 (field b 0 16) (field b 19 13) (skipn 4 b)))
| r09' : (length b < 4)%nat -> reads b 0x09 (DRaw (mkRaw 0x09 b))
| r0A : (length b mod 4 = 0)%nat -> reads b 0x0A (D0A (map read_0A (all_groups 4 b)))
| r0A' : (length b mod 4 <> 0)%nat -> reads b 0x0A (DRaw (mkRaw 0x0A b))
| r0E : length b = 3%nat -> reads b 0x0E (D0E (mk0E (field b 2 22)))
| r0E' : length b <> 3%nat -> reads b 0x0E (DRaw (mkRaw 0x0E b))
| r40 : reads b 0x40 (D40 (text_read b))
| r41 : (length b mod 3 = 0)%nat -> reads b 0x41 (D41 (map read_41 (all_groups 3 b)))
| r41' : (length b mod 3 <> 0)%nat -> reads b 0x41 (DRaw (mkRaw 0x41 b))
| r43 : length b = 11%nat ->
    nibs_ok 8 (field b 0 32) = true -> nibs_ok 4 (field b 32 16) = true -> nibs_ok 6 (field b 56 24) = true ->
    reads b 0x43 (D43 (mk43 (10 * nib_value 8 (field b 0 32)) (6 * nib_value 4 (field b 32 16))
      (field b 48 1) (field b 49 2) (field b 51 2) (field b 53 1) (field b 54 2)
      (nib_value 6 (field b 56 24)) (field b 84 4)))
| r43' : length b <> 11%nat -> reads b 0x43 (DRaw (mkRaw 0x43 b))
| r44 : length b = 11%nat ->
    nibs_ok 8 (field b 0 32) = true -> nibs_ok 6 (field b 56 24) = true -> 100 * nib_value 8 (field b 0 32) < 2 ^ 32 ->
    reads b 0x44 (D44 (mk44 (100 * nib_value 8 (field b 0 32)) (field b 44 4) (field b 48 8)
      (nib_value 6 (field b 56 24)) (field b 84 4)))
| r44' : length b <> 11%nat -> reads b 0x44 (DRaw (mkRaw 0x44 b))
| r48 : (3 <= length b)%nat -> (length b = 3 + len_at b 1 + len_at b (2 + len_at b 1))%nat ->
    reads b 0x48 (D48 (mk48 (field b 0 8) (text_at b 1) (text_at b (2 + len_at b 1))))
| r48' : (length b < 3 \/ (2 + len_at b 1 < length b /\ length b <> 3 + len_at b 1 + len_at b (2 + len_at b 1)))%nat ->
    reads b 0x48 (DRaw (mkRaw 0x48 b))
| r4D : (5 <= length b)%nat -> (length b = 5 + len_at b 3 + len_at b (4 + len_at b 3))%nat ->
    reads b 0x4D (D4D (mk4D (text_read (firstn 3 b)) (text_at b 3) (text_at b (4 + len_at b 3))))
| r4D' : (length b < 5 \/ (4 + len_at b 3 < length b /\ length b <> 5 + len_at b 3 + len_at b (4 + len_at b 3)))%nat ->
    reads b 0x4D (DRaw (mkRaw 0x4D b))
| r4E items : (6 <= length b)%nat -> (length b = 6 + len_at b 4 + len_at b (5 + len_at b 4))%nat ->
    items_read (len_at b 4) (skipn 5 b) items ->
    reads b 0x4E (D4E (mk4E (field b 0 4) (field b 4 4) (text_read (firstn 3 (skipn 1 b))) items (text_at b (5 + len_at b 4))))
| r4E' : (length b < 6 \/ (5 + len_at b 4 < length b /\ length b <> 6 + len_at b 4 + len_at b (5 + len_at b 4)))%nat ->
    reads b 0x4E (DRaw (mkRaw 0x4E b))
| r52 : length b = 1%nat -> reads b 0x52 (D52 (field b 0 8))
| r52' : length b <> 1%nat -> reads b 0x52 (DRaw (mkRaw 0x52 b))
| r58 : (length b mod 13 = 0)%nat ->
    Forall (fun g => nibs_ok 4 (field g 32 16) = true /\ nib_value 2 (field g 32 8) < 5 /\ MJD_EPOCH <= field g 48 16 /\
                     nibs_ok 6 (field g 64 24) = true /\ nibs_ok 4 (field g 88 16) = true /\ nib_value 2 (field g 88 8) < 5)
      (all_groups 13 b) ->
    reads b 0x58 (D58 (map read_58 (all_groups 13 b)))
| r58' : (length b mod 13 <> 0)%nat -> reads b 0x58 (DRaw (mkRaw 0x58 b))
| r5A : length b = 11%nat -> 10 * field b 0 32 < 2 ^ 32 ->
    reads b 0x5A (D5A (mk5A (10 * field b 0 32) (field b 32 3) (field b 35 1) (field b 36 1) (field b 37 1)
      (field b 40 2) (field b 42 3) (field b 45 3) (field b 48 3) (field b 51 2) (field b 53 2) (field b 55 1)))
| r5A' : length b <> 11%nat -> reads b 0x5A (DRaw (mkRaw 0x5A b))
| r83 : (length b mod 4 = 0)%nat -> reads b 0x83 (D83 (map read_83 (all_groups 4 b)))
| r83' : (length b mod 4 <> 0)%nat -> reads b 0x83 (DRaw (mkRaw 0x83 b))
| rRaw t : ~ In t supported -> reads b t (DRaw (mkRaw t b)).

(** the index computed from the lengths inside the body is outside the record *)
Definition oob (t : N) (b : list N) : Prop :=
  (t = 0x48 /\ (3 <= length b <= 2 + len_at b 1)%nat) \/
  (t = 0x4D /\ (5 <= length b <= 4 + len_at b 3)%nat) \/
  (t = 0x4E /\ ((6 <= length b <= 5 + len_at b 4)%nat \/
     ((6 <= length b)%nat /\ length b = (6 + len_at b 4 + len_at b (5 + len_at b 4))%nat /\
      forall items, ~ items_read (len_at b 4) (skipn 5 b) items))).

(** ** descriptor loops *)
(** bytes behind the last complete record *)
Definition incomplete (l : list N) : Prop :=
  (length l < 2)%nat \/ (exists t n r, l = t :: n :: r /\ (length r < N.to_nat n)%nat).
Definition loop_of (recs : list (N * list N)) : list N := flat_map (fun r => tlv (fst r) (snd r)) recs.
