(** What it means that the memory of a buffer does not show: two runs that differ only in it give the caller the same. *)
From Verif Require Import Prelude M_reader M_cbr.

(** a read into the buffers [b] and [c] gives the same answer and state, or aborts alike; the first [k] bytes
    are written alike, the others stay, and no byte is reported that was not written *)
Definition same_read {S} (b c : list N) (x y : res (S * list N * io)) : Prop :=
  (x = Panic /\ y = Panic) \/ (x = Hang /\ y = Hang) \/
  exists s r b' c' k, x = Ok (s, b', r) /\ y = Ok (s, c', r) /\ length b' = length b /\ length c' = length c /\
    firstn k b' = firstn k c' /\ skipn k b' = skipn k b /\ skipn k c' = skipn k c /\ (forall n, r = IoOk n -> (n <= k)%nat).
Definition careful {S} (read : S -> list N -> res (S * list N * io)) : Prop :=
  forall s b c, length b = length c -> same_read b c (read s b) (read s c).

(** what callers of a reader get: of each read the answer and the bytes it reports *)
Fixpoint gets {S} (read : S -> list N -> res (S * list N * io)) (s : S) (bufs : list (list N)) : res (list (io * list N) * S) :=
  match bufs with
  | [] => Ok ([], s)
  | b :: r =>
    match read s b with
    | Ok (s, b, IoOk n) => match gets read s r with Ok (l, s) => Ok ((IoOk n, firstn n b) :: l, s) | Panic => Panic | Hang => Hang end
    | Ok (s, b, IoErr e) => match gets read s r with Ok (l, s) => Ok ((IoErr e, []) :: l, s) | Panic => Panic | Hang => Hang end
    | Panic => Panic
    | Hang => Hang
    end
  end.
(** the same for the caller: equal but for the state at the end *)
Definition same_for_caller {A S T} (x : res (A * S)) (y : res (A * T)) (R : S -> T -> Prop) : Prop :=
  (x = Panic /\ y = Panic) \/ (x = Hang /\ y = Hang) \/ exists l s t, x = Ok (l, s) /\ y = Ok (l, t) /\ R s t.
