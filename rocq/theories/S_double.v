(** Specification: packets that are sent twice (ISO/IEC 13818-1, 2.4.3.3: a packet may be sent once more, with the same counter). *)
From Verif Require Import Prelude Layout S_ts S_psi S_system S_loss S_join.

(** the mark of a packet says that it is sent twice *)
Definition copies (l : marked) : list packet := concat (map (fun x => if snd x : bool then [fst x; fst x] else [fst x]) l).
(** sections in packets that all have a payload, three bytes or more behind the first *)
Definition repeated (xs : list (marked * list N)) : Prop :=
  Forall (fun x => carries (sent_packets (fst x)) (snd x) /\ framed (snd x) /\ (exists cc, counted cc (sent_packets (fst x))) /\
    Forall (fun k => (3 <= length (k_payload k))%nat) (tl (sent_packets (fst x)))) xs.
(** the packets cut behind every one that is sent twice *)
Fixpoint cuts (l : marked) : list (list packet) :=
  match l with
  | [] => [[]]
  | (k, b) :: l' => if (b : bool) then [k] :: cuts l' else match cuts l' with g :: gs => (k :: g) :: gs | [] => [[k]] end
  end.
(** what a receiver with no bytes takes for sections in packets in which none starts *)
Definition taken_for (g : list packet) : list (list N) := repeat (phantom g) (complete_in (section_length (concat (map k_payload g))) 0 g).
(** what it gets of a section: a repeated packet behind the start makes an end of all that came before;
    the section is got if that was all of it, twice if all of it is in one repeated packet *)
Definition got_of (x : marked * list N) : list (list N) :=
  match fst x with
  | [] => []
  | (_, b) :: l =>
    match cuts l with
    | [] => []
    | g :: gs => (if (length g =? length l)%nat then repeat (snd x) (if b && (length l =? 0)%nat then 2 else 1) else []) ++ concat (map taken_for gs)
    end
  end.
Definition got (xs : list (marked * list N)) : list (list N) := concat (map got_of xs).
(** only the first and the last packet of a section are sent twice *)
Definition only_ends (l : marked) : Prop := Forall (fun x => snd x = false) (removelast (tl l)).
(** a packet that equals the one before is left out *)
Fixpoint drop_repeats (l : list (list N)) : list (list N) :=
  match l with
  | [] => []
  | x :: l' => x :: match drop_repeats l' with [] => [] | y :: r => if list_eq_dec N.eq_dec x y then r else y :: r end
  end.
