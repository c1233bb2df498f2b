(** Model of the conversions from a section to a table: [impl From<&Psi>] of every table. *)
From Verif Require Import Prelude M_psi M_tables.

(** pat.rs:118-124 *)
Definition pat_from (m : mode) (p : psi) : res pat := pat_parse m pat_default p.
(** pmt.rs:193-199 *)
Definition pmt_from (m : mode) (p : psi) : res pmt := pmt_parse m pmt_default p.
(** nit.rs:171-177 *)
Definition nit_from (m : mode) (p : psi) : res nit := nit_parse m nit_default p.
(** sdt.rs:162-168 *)
Definition sdt_from (m : mode) (p : psi) : res sdt := sdt_parse m sdt_default p.
(** eit.rs:325-331 *)
Definition eit_from (m : mode) (p : psi) : res eit := eit_parse m eit_default p.
(** tdt.rs:75-81; derive(Default), tdt.rs:25: time 0 *)
Definition tdt_from (m : mode) (p : psi) : res N := tdt_parse m 0 p.
(** tot.rs:85-91 *)
Definition tot_from (m : mode) (p : psi) : res tot := tot_parse m tot_default p.
