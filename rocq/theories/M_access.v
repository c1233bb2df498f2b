(** Access to descriptors: the dynamic type in the box and the vector, descriptors/mod.rs. *)
From Verif Require Import Prelude M_text M_desc.

(** the concrete types that implement Desc *)
Inductive kind := K09 | K0A | K0E | K40 | K41 | K43 | K44 | K48 | K4D | K4E | K52 | K58 | K5A | K83 | KRaw.
Definition kind_eqb (a b : kind) : bool :=
  match a, b with
  | K09, K09 | K0A, K0A | K0E, K0E | K40, K40 | K41, K41 | K43, K43 | K44, K44 | K48, K48 | K4D, K4D | K4E, K4E
  | K52, K52 | K58, K58 | K5A, K5A | K83, K83 | KRaw, KRaw => true
  | _, _ => false
  end.

(** the type of the value in the box (its TypeId), mod.rs:50, 76-78 *)
Definition boxed (d : desc) : kind :=
  match d with
  | D09 _ => K09 | D0A _ => K0A | D0E _ => K0E | D40 _ => K40 | D41 _ => K41 | D43 _ => K43 | D44 _ => K44
  | D48 _ => K48 | D4D _ => K4D | D4E _ => K4E | D52 _ => K52 | D58 _ => K58 | D5A _ => K5A | D83 _ => K83
  | DRaw _ => KRaw
  end.

(** Descriptor::downcast_ref::<T>, mod.rs:117-120: Any::downcast_ref gives None unless the type
    is the boxed one; unwrap panics on None *)
Definition downcast_ref (k : kind) (d : desc) : res desc := if kind_eqb k (boxed d) then Ok d else Panic.
(** Descriptor::downcast_mut::<T>, mod.rs:122-125, followed by a change [f] of the fields *)
Definition downcast_mut (k : kind) (f : desc -> desc) (d : desc) : res desc := if kind_eqb k (boxed d) then Ok (f d) else Panic.

(** Descriptors, mod.rs:131: Default is the empty vector (mod.rs:130) *)
Definition descs_default : list desc := [].
(** mod.rs:165 *)
Definition descs_is_empty (ds : list desc) : bool := match ds with [] => true | _ => false end.
(** mod.rs:168 *)
Definition descs_len (ds : list desc) : nat := length ds.
(** mod.rs:171 *)
Definition descs_get (ds : list desc) (i : nat) : option desc := nth_error ds i.
(** mod.rs:174, followed by a change [f] of the element *)
Definition descs_get_mut (ds : list desc) (i : nat) (f : desc -> desc) : option (list desc) :=
  match nth_error ds i with Some d => Some (firstn i ds ++ f d :: skipn (S i) ds) | None => None end.
(** mod.rs:177-182 *)
Definition descs_push (ds : list desc) (d : desc) : list desc := ds ++ [d].
(** mod.rs:185: the elements in the order of the iterator *)
Definition descs_iter (ds : list desc) : list desc := ds.
