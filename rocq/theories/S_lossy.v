(** Specification: tables sent on one PID of which packets are lost. *)
From Verif Require Import Prelude Layout S_ts S_psi M_tables S_tables S_system S_loss M_multi S_multi.

(** the packets of each table, with a mark that says whether they arrive *)
Definition delivery := list (table * list (list N * bool)).
(** the tables are sent one after the other, from the counter [cc] *)
Fixpoint goes_out (m : mode) (pid cc : N) (xs : delivery) : Prop :=
  match xs with
  | [] => True
  | (t, l) :: r => sendable t /\ Forall (fun x => length (fst x) = 188%nat) l /\
      exists cc', send m t pid cc [] = Ok (cc', concat (map fst l)) /\ goes_out m pid cc' r
  end.
Definition all_packets (xs : delivery) : list (list N * bool) := concat (map snd xs).
Definition got (l : list (list N * bool)) : list (list N) := map fst (filter snd l).

(** every gap shows (S_loss), read from the packets themselves: bit 9 says that a section starts *)
Fixpoint shows (s : sync) (l : list (list N * bool)) : Prop :=
  match l with
  | [] => True
  | (x, false) :: l' => shows (miss s) l'
  | (x, true) :: l' =>
    if flag x 9 then shows In_step l'
    else match s with
         | Nothing => False
         | In_step => shows In_step l'
         | Behind d => (d mod 16 <> 1)%nat /\ shows (Behind (S d)) l'
         end
  end.
(** a condition that needs no counting: the first packet to arrive starts a section, and so does one that arrives
    among the first 16 packets from every loss *)
Definition start_in (l : list (list N * bool)) : Prop := Exists (fun x => snd x = true /\ flag (fst x) 9 = true) l.
Definition soon_again (l : list (list N * bool)) : Prop :=
  (forall a x b, l = a ++ (x, true) :: b -> start_in a \/ flag x 9 = true) /\
  (forall a x b c, l = a ++ (x, false) :: b ++ c -> length b = 15%nat -> start_in b).

(** the packets of each section *)
Fixpoint runs {A} (l : list (list N * A)) : list (list (list N * A)) :=
  match l with
  | [] => []
  | x :: r => match runs r with
              | (y :: g) :: gs => if flag (fst y) 9 then [x] :: (y :: g) :: gs else (x :: y :: g) :: gs
              | _ => [[x]]
              end
  end.
(** which sections arrive whole *)
Definition arrive (l : list (list N * bool)) : list bool := map (forallb snd) (runs l).
Definition keep {A} (bs : list bool) (l : list A) : list A := map snd (filter fst (combine bs l)).
Definition whole (l : list (list N * bool)) : Prop := Forall (fun x => snd x = true) l.
Definition lost (l : list (list N * bool)) : Prop := Forall (fun x => snd x = false) l.

(** what a receiver gets of a table: of one section all when all packets arrive, else nothing *)
Definition one_section {T} (t : T) (l : list (list N * bool)) (o : option T) : Prop := (whole l -> o = Some t) /\ (~ whole l -> o = None).
(** of more sections the items of those that arrive whole; [gs] are the items of each section *)
Definition sections {A T} (items : list A) (l : list (list N * bool)) (o : option T) (mk : list A -> T -> Prop) : Prop :=
  exists gs, items = concat gs /\ length gs = length (runs l) /\ (1 <= length gs)%nat /\
    match keep (arrive l) gs with [] => o = None | k => exists u, o = Some u /\ mk (concat k) u end.
(** with the descriptors of the first section *)
Definition first_descs {A} (l : list (list N * bool)) (ds : list A) : list A := if hd false (arrive l) then ds else [].
Definition pat_bit (t : table) (l : list (list N * bool)) (o : option pat) : Prop := match t with TPat t => one_section t l o | _ => o = None end.
Definition tot_bit (t : table) (l : list (list N * bool)) (o : option tot) : Prop := match t with TTot t => one_section t l o | _ => o = None end.
Definition tdt_bit (t : table) (l : list (list N * bool)) (o : option N) : Prop := match t with TTdt t => one_section t l o | _ => o = None end.
Definition pmt_bit (t : table) (l : list (list N * bool)) (o : option pmt) : Prop :=
  match t with TPmt t => sections (pmt_items t) l o (fun items u => u = mkPmt (pmt_version t) (pmt_pnr t) (pmt_pcr t) (first_descs l (pmt_descs t)) items) | _ => o = None end.
Definition nit_bit (t : table) (l : list (list N * bool)) (o : option nit) : Prop :=
  match t with TNit t => sections (nit_items t) l o (fun items u => u = mkNit (nit_table t) (nit_version t) (nit_network t) (first_descs l (nit_descs t)) items) | _ => o = None end.
Definition sdt_bit (t : table) (l : list (list N * bool)) (o : option sdt) : Prop :=
  match t with TSdt t => sections (sdt_items t) l o (fun items u => u = mkSdt (sdt_table t) (sdt_version t) (sdt_tsid t) (sdt_onid t) items) | _ => o = None end.
(** the sections of a schedule are on up to 16 table ids *)
Definition eit_bit (t : table) (l : list (list N * bool)) (o : option eit) : Prop :=
  match t with TEit t => sections (eit_items t) l o (fun items u => exists tb, kind_of tb t /\ u = mkEit tb (eit_version t) (eit_pnr t) (eit_tsid t) (eit_onid t) items) | _ => o = None end.
Definition somes {T} (l : list (option T)) : list T := flat_map (fun o => match o with Some t => [t] | None => [] end) l.
