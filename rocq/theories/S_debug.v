(** Specification: the text a packet view must show, from the syntax table of the header
    (ISO/IEC 13818-1 tables 2-2 and 2-6), one field after the other. *)
From Coq Require Import String Ascii.
From Verif Require Import Prelude Layout.
Local Open Scope string_scope.

Definition digit (c : ascii) : option N :=
  let n := N_of_ascii c in if ((48 <=? n) && (n <=? 57))%N then Some (n - 48)%N else None.
(** value of a string of decimal digits; [None] for anything else *)
Fixpoint digits (acc : N) (s : string) : option N :=
  match s with
  | "" => Some acc
  | String c s' => match digit c with Some d => digits (10 * acc + d)%N s' | None => None end
  end.
(** [s] is the decimal numeral of [n]: digits only, no leading zero *)
Definition numeral (s : string) (n : N) : Prop :=
  s <> "" /\ digits 0 s = Some n /\ (forall s', s = String "0" s' -> s' = "").

Definition yes_no (b : bool) : string := if b then "true" else "false".

Section Text.
  (** how numbers are written, and what separates fields *)
  Variable num : N -> string.

  Definition adaptation_fields (ts : list N) : list (string * string) :=
    ("length", num (field ts 32 8)) ::
    if (field ts 32 8 =? 0)%N then [] else
    ([("discontinuity", yes_no (flag ts 40)); ("random_access", yes_no (flag ts 41)); ("es_priority", yes_no (flag ts 42));
      ("PCR_flag", yes_no (flag ts 43)); ("OPCR_flag", yes_no (flag ts 44)); ("splicing_point", yes_no (flag ts 45));
      ("private_data", yes_no (flag ts 46)); ("af_extension", yes_no (flag ts 47))] ++
     if flag ts 43 then [("pcr", num (field ts 48 33 * 300 + field ts 87 9)%N)] else [])%list.

  Definition before (ts : list N) : list (string * string) :=
    [("sync", yes_no (field ts 0 8 =? 0x47)%N); ("error", num (field ts 8 1)); ("pusi", yes_no (flag ts 9));
     ("pid", num (field ts 11 13)); ("scrambling", num (field ts 24 2))].
  Definition after (ts : list N) : list (string * string) :=
    [("payload", yes_no (flag ts 27)); ("cc", num (field ts 28 4))].

  (** one line: Name { a: 1, b: 2 } *)
  Definition one_line (name : string) (fields : list (string * string)) : string :=
    name ++ " { " ++ String.concat ", " (map (fun f => fst f ++ ": " ++ snd f) fields) ++ " }".
  Definition adaptation_line (ts : list N) : string :=
    if flag ts 26 then one_line "TsAdaptation" (adaptation_fields ts) else "false".
  Definition packet_line (ts : list N) : string :=
    one_line "TsPacket" (before ts ++ ("adaptation", adaptation_line ts) :: after ts)%list.

  (** one field per line, nested fields indented *)
  Definition eol : string := String "010" "".
  Definition lines (indent : string) (fields : list (string * string)) : string :=
    String.concat "" (map (fun f => indent ++ fst f ++ ": " ++ snd f ++ "," ++ eol) fields).
  Definition packet_lines (ts : list N) : string :=
    "TsPacket {" ++ eol ++ lines "    " (before ts) ++
    "    adaptation: " ++
      (if flag ts 26 then "TsAdaptation {" ++ eol ++ lines "        " (adaptation_fields ts) ++ "    }" else "false") ++ "," ++ eol ++
    lines "    " (after ts) ++ "}".
End Text.
