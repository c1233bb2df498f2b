(** Specification: which texts of a user go through, and what the viewer is to see. *)
From Verif Require Import Prelude S_text M_text M_words S_utils.

(** the characters are in the code page (21: UTF-8) *)
Definition writable (cp : N) (s : list N) : Prop :=
  (exists page, In (cp, page) pages /\ Forall (representable page) s) \/ (cp = 21 /\ Forall is_char s).
(** a text without a code page selector must not start with what looks like one *)
Definition plain_start (cp : N) (s : list N) : Prop := cp = 0 -> s <> [] -> 0x20 <= hd 0 s.
(** bytes of the text, and with its selector *)
Definition weight (cp : N) (s : list N) : nat := if cp =? 21 then length (utf8 s) else length s.
Definition wire_weight (cp : N) (s : list N) : nat := match s with [] => 0 | _ => length (selector cp) + weight cp s end.
Definition label_ok (cp : N) (s : list N) : Prop := writable cp s /\ plain_start cp s.

Definition service_ok (s : service) : Prop :=
  sv_pnr s < 2 ^ 16 /\ sv_type s < 2 ^ 8 /\ label_ok (sv_cp s) (sv_provider s) /\ label_ok (sv_cp s) (sv_name s) /\
  (wire_weight (sv_cp s) (sv_provider s) + wire_weight (sv_cp s) (sv_name s) <= 252)%nat.
Definition service_seen (s : service) : N * option (N * list N * list N) := (sv_pnr s, Some (sv_type s, sv_provider s, sv_name s)).

(** the long text can be cut anywhere between characters: no control characters without a selector, no characters above
    U+FFFF in UTF-8 *)
Definition long_ok (cp : N) (s : list N) : Prop :=
  writable cp s /\ (cp = 0 -> Forall (fun c => 0x20 <= c) s) /\ (cp = 21 -> Forall (fun c => c < 0x10000) s) /\ (weight cp s <= N.to_nat 3600)%nat.
Definition event_ok (e : event) : Prop :=
  ev_id e < 2 ^ 16 /\ ev_start e < MJD_END /\ ev_duration e < 86400 /\
  length (ev_lang e) = 3%nat /\ Forall (fun c => 0x20 <= c < 0x80) (ev_lang e) /\
  label_ok (ev_cp e) (ev_title e) /\ label_ok (ev_cp e) (ev_sub e) /\
  (wire_weight (ev_cp e) (ev_title e) + wire_weight (ev_cp e) (ev_sub e) <= 250)%nat /\ long_ok (ev_cp e) (ev_long e).
Definition event_seen (e : event) : N * N * N * option (list N * list N * list N) * list N :=
  (ev_id e, ev_start e, ev_duration e, Some (ev_lang e, ev_title e, ev_sub e), ev_long e).
