(** Specification: the packets contained in a byte stream. *)
From Verif Require Import Prelude.

(** skip everything before the first sync byte *)
Fixpoint to_sync (l : list N) : list N :=
  match l with [] => [] | b :: l' => if b =? 0x47 then l else to_sync l' end.

(** [in_stream l pks rest]: reading [l] packet by packet gives [pks]; then fewer than
    188 bytes from the next sync byte on are left *)
Inductive in_stream : list N -> list (list N) -> Prop :=
| in_end l : (length (to_sync l) < 188)%nat -> in_stream l []
| in_next l pk l' pks : to_sync l = pk ++ l' -> length pk = 188%nat -> in_stream l' pks ->
    in_stream l (pk :: pks).
