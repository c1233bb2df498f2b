(** Driver (not code of /repo): what a program built on the library does to put texts of a user into tables and to show the
    texts of received tables. It calls StringDVB::from_str (textcode/mod.rs:134-184), split (256-291) and to_string (Display,
    92-121); the tables are sent and received as in M_tables. A text is the list of its characters. *)
From Verif Require Import Prelude M_text M_desc M_tables.

Fixpoint each {A B} (f : A -> res B) (l : list A) : res (list B) :=
  match l with [] => Ok [] | x :: r => y <- f x ;; ys <- each f r ;; Ok (y :: ys) end.

(** ** sending *)
(** a service: number, type, code page, texts *)
Record service := mkSv { sv_pnr : N; sv_type : N; sv_cp : N; sv_provider : list N; sv_name : list N }.
Definition service_item (m : mode) (s : service) : res sdt_item :=
  p <- dvb_from_str m (sv_provider s) (sv_cp s) ;;
  n <- dvb_from_str m (sv_name s) (sv_cp s) ;;
  Ok (mkSdtI (sv_pnr s) 0 1 4 0 [D48 (mk48 (sv_type s) p n)]).
Definition sdt_made (m : mode) (version tsid onid : N) (l : list service) : res sdt :=
  items <- each (service_item m) l ;; Ok (mkSdt 0x42 version tsid onid items).

(** an event: the long text is cut into pieces of 249 bytes on the wire, one extended event descriptor (x4e.rs) for each *)
Record event := mkEv { ev_id : N; ev_start : N; ev_duration : N; ev_cp : N; ev_lang : list N; ev_title : list N; ev_sub : list N; ev_long : list N }.
Fixpoint extended (lang : dvb) (last n : N) (l : list dvb) : list desc :=
  match l with [] => [] | t :: r => D4E (mk4E n last lang [] t) :: extended lang last (n + 1) r end.
Definition event_item (m : mode) (e : event) : res eit_item :=
  l <- dvb_from_str m (ev_lang e) 0 ;;
  t <- dvb_from_str m (ev_title e) (ev_cp e) ;;
  s <- dvb_from_str m (ev_sub e) (ev_cp e) ;;
  x <- dvb_from_str m (ev_long e) (ev_cp e) ;;
  ps <- dvb_split (S (length (t_data x))) m x 249 ;;
  Ok (mkEitI (ev_id e) (ev_start e) (ev_duration e) 0 0 (D4D (mk4D l t s) :: extended l (N.of_nat (length ps - 1)) 0 ps)).
Definition eit_made (m : mode) (table version pnr tsid onid : N) (l : list event) : res eit :=
  items <- each (event_item m) l ;; Ok (mkEit table version pnr tsid onid items).

(** the name of a network *)
Definition nit_made (m : mode) (version network cp : N) (name : list N) (items : list nit_item) : res nit :=
  n <- dvb_from_str m name cp ;; Ok (mkNit 0x40 version network [D40 n] items).

(** ** showing *)
(** the first service descriptor *)
Fixpoint service_view (ds : list desc) : res (option (N * list N * list N)) :=
  match ds with
  | [] => Ok None
  | D48 d :: _ => p <- dvb_to_string (d48_provider d) ;; n <- dvb_to_string (d48_name d) ;; Ok (Some (d48_type d, p, n))
  | _ :: r => service_view r
  end.
Definition sdt_view (t : sdt) : res (list (N * option (N * list N * list N))) :=
  each (fun i => v <- service_view (sdti_descs i) ;; Ok (sdti_pnr i, v)) (sdt_items t).
(** the first short event descriptor, and the texts of all extended event descriptors *)
Fixpoint short_view (ds : list desc) : res (option (list N * list N * list N)) :=
  match ds with
  | [] => Ok None
  | D4D d :: _ => l <- dvb_to_string (d4D_lang d) ;; t <- dvb_to_string (d4D_name d) ;; s <- dvb_to_string (d4D_text d) ;; Ok (Some (l, t, s))
  | _ :: r => short_view r
  end.
Fixpoint long_view (ds : list desc) : res (list N) :=
  match ds with
  | [] => Ok []
  | D4E d :: r => t <- dvb_to_string (d4E_text d) ;; x <- long_view r ;; Ok (t ++ x)
  | _ :: r => long_view r
  end.
Definition event_view (i : eit_item) : res (N * N * N * option (list N * list N * list N) * list N) :=
  s <- short_view (eiti_descs i) ;; x <- long_view (eiti_descs i) ;; Ok (eiti_id i, eiti_start i, eiti_duration i, s, x).
Definition eit_view (t : eit) : res (list (N * N * N * option (list N * list N * list N) * list N)) := each event_view (eit_items t).
Fixpoint name_view (ds : list desc) : res (option (list N)) :=
  match ds with
  | [] => Ok None
  | D40 t :: _ => n <- dvb_to_string t ;; Ok (Some n)
  | _ :: r => name_view r
  end.
