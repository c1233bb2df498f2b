(** Model of the Debug views of the readers, of Cbr and of StreamType ([{:?}]), as trees (M_show). The
    Debug of the reader inside is a parameter [f]. *)
From Coq Require Import String.
From Verif Require Import Prelude M_tables M_reader M_cbr M_show.
Local Open Scope string_scope.

(** derive(Debug), es/mod.rs:13: a variant without fields is its name; so is a structure without fields (M_layout.written) *)
Definition stream_type_show (t : stream_type) : res tree :=
  Ok (SStruct (match t with VIDEO => "VIDEO" | AUDIO => "AUDIO" | AIT => "AIT" | SUB => "SUB" | TTX => "TTX" | DATA => "DATA" end) []).
(** reader/mod.rs:61-67; the state of TsReader is the reader inside (M_reader) *)
Definition reader_show {S} (f : S -> res tree) (s : S) : res tree := v <- f s ;; Ok (SStruct "TsReader" [("inner", v)]).
(** reader/drain.rs:30-36 *)
Definition drain_show {S} (f : S -> res tree) (d : drain S) : res tree := v <- f (d_inner d) ;; Ok (SStruct "TsDrain" [("inner", v)]).
(** mux/cbr/mod.rs:37-46; the name is as written there *)
Definition block_show (b : block) : res tree :=
  Ok (SStruct "HttpBuffer" [("pos", SNum (N.of_nat (b_pos b))); ("cap", SNum (N.of_nat (b_cap b))); ("pcr", SNum (b_pcr b)); ("delta", SNum (b_delta b))]).
(** derive(Debug), mux/cbr/mod.rs:67; Debug of an array is that of the list *)
Definition cbr_show {S} (f : S -> res tree) (c : cbr S) : res tree :=
  v <- f (c_inner c) ;; b <- show_vec block_show (c_blocks c) ;;
  Ok (SStruct "Cbr" [("inner", v); ("parity", SNum (N.of_nat (c_parity c))); ("blocks", b); ("pid", SNum (c_pid c)); ("last_pcr", SNum (c_last c))]).
