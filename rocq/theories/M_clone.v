(** Derived Clone and PartialEq: EitItem (src/psi/eit.rs:29), StringDVB (src/textcode/mod.rs:88), StreamType (src/es/mod.rs:13). *)
From Verif Require Import Prelude M_text M_desc M_tables.

(** eit.rs:29, derive(Clone): field by field; the descriptors by the Clone of Descriptors (descriptors/mod.rs:54-72, 130) *)
Definition eit_item_clone (i : eit_item) : res eit_item :=
  ds <- descs_clone (eiti_descs i) ;; Ok (mkEitI (eiti_id i) (eiti_start i) (eiti_duration i) (eiti_status i) (eiti_ca i) ds).
(** derived PartialEq of Vec<u8>: lengths and elements *)
Fixpoint vec_eq (a b : list N) : bool :=
  match a, b with [], [] => true | x :: a', y :: b' => (x =? y) && vec_eq a' b' | _, _ => false end.
(** textcode/mod.rs:88, derive(PartialEq): code page and bytes *)
Definition dvb_eq (a b : dvb) : bool := (t_cp a =? t_cp b) && vec_eq (t_data a) (t_data b).
(** es/mod.rs:13, derive(PartialEq): the same variant *)
Definition stream_type_eq (a b : stream_type) : bool :=
  match a, b with
  | VIDEO, VIDEO | AUDIO, AUDIO | AIT, AIT | SUB, SUB | TTX, TTX | DATA, DATA => true
  | _, _ => false
  end.
