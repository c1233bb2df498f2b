(** Rust machinery shared by all model files: build profile, panics, fixed width
    integers, slices and vectors. Nothing here is specific to libmpegts; it is the
    reading of Rust's semantics under which the model is written. *)
From Coq Require Export List NArith ZArith Lia Bool Arith.
From Coq Require Export ZifyBool ZifyNat ZifyN.
Export ListNotations.
Global Open Scope N_scope.

(** Build profile. [Debug]: overflow checks and [debug_assert!] are active.
    [Release]: arithmetic wraps, [debug_assert!] is compiled out. *)
Inductive mode := Debug | Release.

(** Outcome of running a function: a value, a panic, or fuel exhaustion (the loop
    did not stop within the fuel; used to state termination / non-termination). *)
Inductive res (A : Type) := Ok (a : A) | Panic | Hang.
Arguments Ok {A} a.
Arguments Panic {A}.
Arguments Hang {A}.

Definition bind {A B} (e : res A) (k : A -> res B) : res B :=
  match e with Ok a => k a | Panic => Panic | Hang => Hang end.
Notation "x <- e ;; k" := (bind e (fun x => k))
  (at level 61, e at next level, right associativity).
Notation "' p <- e ;; k" := (bind e (fun x => match x with p => k end))
  (at level 61, p pattern, e at next level, right associativity).

(** [debug_assert!(b)] *)
Definition dassert (m : mode) (b : bool) : res unit :=
  match m with
  | Debug => if b then Ok tt else Panic
  | Release => Ok tt
  end.

(** moduli of the fixed width types *)
Definition U8 : N := 256.
Definition U16 : N := 65536.
Definition U32 : N := 4294967296.
Definition U64 : N := 18446744073709551616.

(** checked / wrapping arithmetic on an unsigned type of modulus [w] *)
Definition addw (w : N) (m : mode) (a b : N) : res N :=
  if a + b <? w then Ok (a + b)
  else match m with Debug => Panic | Release => Ok ((a + b) mod w) end.
Definition subw (w : N) (m : mode) (a b : N) : res N :=
  if b <=? a then Ok (a - b)
  else match m with Debug => Panic | Release => Ok (w + a - b) end.
Definition mulw (w : N) (m : mode) (a b : N) : res N :=
  if a * b <? w then Ok (a * b)
  else match m with Debug => Panic | Release => Ok ((a * b) mod w) end.
(** [a << k] with [k] below the width: bits shifted out are lost, no check *)
Definition shlw (w : N) (a k : N) : N := (N.shiftl a k) mod w.
(** [a as uN] *)
Definition cast (w : N) (a : N) : N := a mod w.
(** unsigned division: by zero panics in both profiles *)
Definition divw (a b : N) : res N := if b =? 0 then Panic else Ok (a / b).

(** a byte slice / Vec<u8> is a list of numbers below 256 *)
Definition bytes (l : list N) : Prop := Forall (fun b => b < 256) l.
Definition bytesb (l : list N) : bool := forallb (fun b => b <? 256) l.

Section Slices.
  Context {A : Type}.
  (** [l[i]] *)
  Definition get (l : list A) (i : nat) : res A :=
    match nth_error l i with Some x => Ok x | None => Panic end.
  (** [l[i] = v] *)
  Definition set (l : list A) (i : nat) (v : A) : res (list A) :=
    if (i <? length l)%nat then Ok (firstn i l ++ v :: skipn (S i) l) else Panic.
  (** [&l[a .. b]] *)
  Definition slice (l : list A) (a b : nat) : res (list A) :=
    if ((a <=? b) && (b <=? length l))%nat then Ok (firstn (b - a) (skipn a l)) else Panic.
  (** [&l[a ..]] *)
  Definition slice_from (l : list A) (a : nat) : res (list A) :=
    if (a <=? length l)%nat then Ok (skipn a l) else Panic.
  (** [f(&mut l[a ..])]: apply an in-place function to a tail of the vector *)
  Definition on_from (l : list A) (a : nat) (f : list A -> res (list A)) : res (list A) :=
    t <- slice_from l a ;; t' <- f t ;; Ok (firstn a l ++ t').
  (** [l.resize(n, v)] *)
  Definition resize (l : list A) (n : nat) (v : A) : list A :=
    firstn n l ++ repeat v (n - length l).
  (** [dst[a .. b].copy_from_slice(src)]: panics unless the lengths agree *)
  Definition copy_from (dst : list A) (a b : nat) (src : list A) : res (list A) :=
    if ((a <=? b) && (b <=? length dst) && (b - a =? length src))%nat
    then Ok (firstn a dst ++ src ++ skipn b dst) else Panic.
End Slices.

(** usize subtraction where the code immediately indexes with the result: with
    overflow checks it panics; without, the wrapped index (at least 2^64 - 2^32 for
    the amounts subtracted here) is out of bounds of any vector, so it panics too. *)
Definition sub_idx (a b : nat) : res nat :=
  if (b <=? a)%nat then Ok (a - b)%nat else Panic.

Definition is_ok {A} (r : res A) : bool := match r with Ok _ => true | _ => false end.

Global Arguments N.add : simpl never.
Global Arguments N.sub : simpl never.
Global Arguments N.mul : simpl never.
Global Arguments N.div : simpl never.
Global Arguments N.modulo : simpl never.
Global Arguments N.pow : simpl never.
Global Arguments N.land : simpl never.
Global Arguments N.lor : simpl never.
Global Arguments N.lxor : simpl never.
Global Arguments N.shiftl : simpl never.
Global Arguments N.shiftr : simpl never.
Global Arguments N.testbit : simpl never.
Global Arguments N.eqb : simpl never.
Global Arguments N.ltb : simpl never.
Global Arguments N.leb : simpl never.
Global Arguments N.of_nat : simpl never.
Global Arguments N.to_nat : simpl never.
