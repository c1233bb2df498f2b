(** Model of src/ts/debug.rs: the Debug views of a packet, and of the part of std::fmt they
    use. Texts are Coq strings (all output is ASCII). Formatter flags other than the
    alternate flag ({:#?}) are not modelled; no test or caller in /repo sets them. *)
From Coq Require Import String DecimalString Ascii.
From Verif Require Import Prelude M_ts.
Local Open Scope string_scope.

(** what a Debug implementation asks the formatter to write *)
Inductive view :=
| VBool (b : bool)
| VNum (n : N)
| VStruct (name : string) (fields : list (string * view)).

(** core::fmt::num, Display/Debug of an unsigned integer *)
Definition dec (n : N) : string := NilZero.string_of_uint (N.to_uint n).
(** Debug of bool *)
Definition bool_text (b : bool) : string := if b then "true" else "false".

Definition newline : ascii := "010"%char.
Definition nl : string := String newline "".
(** core::fmt::builders::PadAdapter: four spaces in front of every line *)
Fixpoint pad (on_newline : bool) (s : string) : string :=
  match s with
  | "" => ""
  | String c s' =>
    let r := String c (pad (Ascii.eqb c newline) s') in
    if on_newline then "    " ++ r else r
  end.

(** core::fmt::builders::DebugStruct::field, plain and pretty *)
Definition field_text (alt has_fields : bool) (name value : string) : string :=
  if alt then (if has_fields then "" else " {" ++ nl) ++ pad true (name ++ ": " ++ value ++ "," ++ nl)
  else (if has_fields then ", " else " { ") ++ name ++ ": " ++ value.
(** DebugStruct::finish *)
Definition finish_text (alt has_fields : bool) : string :=
  if has_fields then (if alt then "}" else " }") else "".

Fixpoint render (alt : bool) (v : view) : string :=
  match v with
  | VBool b => bool_text b
  | VNum n => dec n
  | VStruct name fields =>
    name ++
    (fix go (has : bool) (l : list (string * view)) : string :=
       match l with
       | [] => finish_text alt has
       | (k, x) :: l' => field_text alt has k (render alt x) ++ go true l'
       end) false fields
  end.

(** impl Debug for TsAdaptation, ts/debug.rs:26-58; [m]: get_pcr's arithmetic *)
Definition adaptation_view (m : mode) (ts : list N) : res view :=
  a <- is_adaptation ts ;;
  if negb a then Ok (VBool false) else
  len <- get_adaptation_size ts ;;
  if (len =? 0)%N then Ok (VStruct "TsAdaptation" [("length", VNum len)]) else
  p <- slice_from ts 5 ;;
  p0 <- get p 0 ;;
  let bit mask := VBool (negb (N.land p0 mask =? 0)%N) in
  let pcr_flag := negb (N.land p0 16 =? 0)%N in
  pcr <- (if pcr_flag then x <- get_pcr m ts ;; Ok [("pcr", VNum x)] else Ok []) ;;
  Ok (VStruct "TsAdaptation"
    ([("length", VNum len); ("discontinuity", bit 128); ("random_access", bit 64); ("es_priority", bit 32);
      ("PCR_flag", VBool pcr_flag); ("OPCR_flag", bit 8); ("splicing_point", bit 4); ("private_data", bit 2);
      ("af_extension", bit 1)] ++ pcr)%list).

(** TsAdaptation::new, ts/debug.rs:18-23 *)
Definition ts_adaptation_new (m : mode) (ts : list N) : res (list N) :=
  _ <- dassert m (188 <=? length ts)%nat ;; Ok ts.

(** TsPacket::new, ts/debug.rs:65-70 *)
Definition ts_packet_new (m : mode) (ts : list N) : res (list N) :=
  _ <- dassert m (188 <=? length ts)%nat ;; Ok ts.

(** impl Debug for TsPacket, ts/debug.rs:73-87; the fields are formatted in this order *)
Definition packet_view (m : mode) (ts : list N) : res view :=
  sync <- is_sync ts ;;
  b1 <- get ts 1 ;;
  pusi <- is_pusi ts ;;
  pid <- get_pid ts ;;
  b3 <- get ts 3 ;;
  a <- ts_adaptation_new m ts ;;
  adaptation <- adaptation_view m a ;;
  payload <- is_payload ts ;;
  cc <- get_cc ts ;;
  Ok (VStruct "TsPacket"
    [("sync", VBool sync); ("error", VNum (N.shiftr (N.land b1 128) 7)); ("pusi", VBool pusi); ("pid", VNum pid);
     ("scrambling", VNum (N.shiftr (N.land b3 192) 6)); ("adaptation", adaptation); ("payload", VBool payload);
     ("cc", VNum cc)]).

(** [format!("{:?}", TsPacket::new(ts))] and, with [alt], [{:#?}] *)
Definition packet_text (m : mode) (alt : bool) (ts : list N) : res string :=
  p <- ts_packet_new m ts ;; v <- packet_view m p ;; Ok (render alt v).
Definition adaptation_text (m : mode) (alt : bool) (ts : list N) : res string :=
  p <- ts_adaptation_new m ts ;; v <- adaptation_view m p ;; Ok (render alt v).
