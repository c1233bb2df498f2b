(** Specification: a stream of packets in which bytes were lost, added or changed, and what is found of it again. *)
From Verif Require Import Prelude S_lossy.

Definition is_packet (x : list N) : Prop := length x = 188%nat /\ hd 0 x = 0x47.
(** the stream in pieces: packets that are gone, the bytes that came in their place, and packets that came as they were *)
Record piece := mkPiece { gone : list (list N); noise : list N; intact : list (list N) }.
Definition sent_packets (l : list piece) : list (list N) := flat_map (fun x => gone x ++ intact x) l.
Definition came (l : list piece) : list N := flat_map (fun x => noise x ++ concat (intact x)) l.

(** a byte 0x47 in each packet, none in front of the one in the packet before, from [i] on: a reader that looks for it takes these for starts *)
Fixpoint misled (i : nat) (l : list (list N)) : Prop :=
  match l with [] => True | x :: r => exists j, (i <= j < 188)%nat /\ nth j x 0 = 0x47 /\ misled j r end.
(** [kept] is what is found of the packets [r]: all, or those behind the first in which there is no such byte, or none *)
Definition found_again (r kept : list (list N)) : Prop :=
  kept = r \/
  exists i lost, (1 <= i < 188)%nat /\ r = lost ++ kept /\
    ((misled i lost /\ kept = []) \/ (exists l x, lost = l ++ [x] /\ misled i l /\ ~ misled i lost)).

(** [found in_step l ks fs out]: of each piece the packets [ks] are found, [fs] are taken for packets wrongly, [out] is everything in order;
    noise without 0x47 does not harm a reader that is in step *)
Inductive found : bool -> list piece -> list (list (list N)) -> list (list N) -> list (list N) -> Prop :=
| found_end b : found b [] [] [] []
| found_all x l ks fs out : ~ In 0x47 (noise x) -> found true l ks fs out -> found true (x :: l) (intact x :: ks) fs (intact x ++ out)
| found_some b x l f k ks fs out : (b = true -> In 0x47 (noise x)) -> found_again (intact x) k -> found (match k with [] => false | _ => true end) l ks fs out ->
    found b (x :: l) (k :: ks) (f ++ fs) (f ++ k ++ out).

(** the packets sent, with a mark for those that are found *)
Definition mark (b : bool) (l : list (list N)) : list (list N * bool) := map (fun x => (x, b)) l.
Fixpoint marks (l : list piece) (ks : list (list (list N))) : list (list N * bool) :=
  match l, ks with
  | x :: l, k :: ks => mark false (gone x) ++ mark false (firstn (length (intact x) - length k) (intact x)) ++ mark true k ++ marks l ks
  | _, _ => []
  end.
(** at no place behind the first byte do [w] packets in a row have 0x47 *)
Definition varied (w : nat) (r : list (list N)) : Prop :=
  forall j a b c, (1 <= j < 188)%nat -> r = a ++ b ++ c -> length b = w -> Exists (fun x => nth j x 0 <> 0x47) b.
