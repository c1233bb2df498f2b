(** Property theorems C114: remultiplexers one after another. Specification: S_remux, S_cascade. *)
From Verif Require Import Prelude Layout S_ts S_psi M_ts M_remux S_remux M_restamp S_restamp M_cascade S_cascade.
From Verif Require P_remux P_restamp P_cascade Facts.

(** ** vocabulary of the statements *)
(** the new PIDs fit their field *)
Definition fit (st : mode * (N -> option N)) : Prop := forall x y, snd st x = Some y -> y < 8192.
Definition ex_packet (pid cc : N) : list N := ts_header 0x47 0 0 1 pid 2 0 1 cc ++ repeat 0xAA 184.
Definition swap (a b pid : N) : option N := if pid =? a then Some b else if pid =? b then Some a else if pid <? 0x1FFF then Some pid else None.

(** * C114 *)
(** Any number of remultiplexers is like one with the routes put together; packets that one of them drops are gone. *)
Theorem C114_routes : forall stages l, Forall fit stages -> Forall sound l -> remaps stages l = Ok (routed (through (map snd stages)) l).
Proof. intros stages l F S. exact (P_cascade.remaps_spec stages F l S). Qed.
Print Assumptions C114_routes.
(** If the routes lead every packet back to its PID, all packets are as they were, in all bytes. *)
Theorem C114_back : forall stages l, Forall fit stages -> Forall sound l -> Forall (fun pk => through (map snd stages) (field pk 11 13) = Some (field pk 11 13)) l ->
  remaps stages l = Ok l.
Proof. intros stages l F S B. rewrite (C114_routes stages l F S). f_equal. exact (P_cascade.routed_own _ l S B). Qed.
Print Assumptions C114_back.
(** Of several that count the packets of a PID anew the last decides; the others leave no trace. *)
Theorem C114_counts : forall stages m m' c l, Forall (fun st => snd st < 16) stages -> c < 16 -> Forall sound l -> renumbers (stages ++ [(m, c)]) l = renumber m' c l.
Proof. intros stages m m' c l F C S. rewrite (P_cascade.renumbers_last stages m c C F l S), (P_remux.renumber_spec m' l S c C). reflexivity. Qed.
Print Assumptions C114_counts.
(** Counting from the number in front of the first packet leaves an unbroken stream of packets with payload as it is. *)
Theorem C114_keeps : forall m c l, c < 16 -> Forall sound l -> Forall (fun pk => flag pk 27 = true) l -> unbroken c l -> renumber m c l = Ok l.
Proof. intros m c l C S P U. rewrite (P_remux.renumber_spec m l S c C). f_equal. exact (P_cascade.renumbered_keeps l S P c U). Qed.
Print Assumptions C114_keeps.
(** Moving the packets of a PID and counting them can be done in either order. *)
Theorem C114_order : forall m m' route pid c l, (forall x y, route x = Some y -> y < 8192) -> c < 16 -> Forall sound l -> Forall (fun pk => field pk 11 13 = pid) l ->
  (l1 <- renumber m c l ;; remap m' route l1) = (l1 <- remap m' route l ;; renumber m c l1).
Proof.
  intros m m' route pid c l R C S P. rewrite (P_remux.renumber_spec m l S c C), (P_remux.remap_spec m' route l S R). cbn [bind].
  rewrite (P_remux.remap_spec m' route _ (P_cascade.renumbered_sound l S c) R), (P_remux.renumber_spec m _ (P_cascade.routed_sound route l S) c C).
  f_equal. exact (P_cascade.recount_routed route pid R l P c C).
Qed.
Print Assumptions C114_order.
(** and so can giving the packets another clock (C80), before or behind. *)
Theorem C114_clock : forall m m' route c k l, (forall x y, route x = Some y -> y < 8192) -> c < 16 -> k < 2 ^ 63 -> Forall sound l ->
  (l1 <- restamp m k l ;; remap m' route l1) = (l1 <- remap m' route l ;; restamp m k l1) /\
  (l1 <- restamp m k l ;; renumber m' c l1) = (l1 <- renumber m' c l ;; restamp m k l1).
Proof.
  intros m m' route c k l R C K S. pose proof (P_cascade.sound_packets l S) as P.
  assert (S' : Forall sound (map (later k) l)).
  { apply Forall_forall. intros x I. apply in_map_iff in I. destruct I as (pk & <- & I). apply P_restamp.later_sound. exact (proj1 (Forall_forall _ _) S pk I). }
  pose proof (P_cascade.sound_packets _ (P_cascade.routed_sound route l S)) as P1. pose proof (P_cascade.sound_packets _ (P_cascade.renumbered_sound l S c)) as P2.
  rewrite (P_restamp.restamp_spec m k l P K), (P_remux.remap_spec m' route l S R), (P_remux.renumber_spec m' l S c C). cbn [bind].
  rewrite (P_remux.remap_spec m' route _ S' R), (P_remux.renumber_spec m' _ S' c C), (P_restamp.restamp_spec m k _ P1 K), (P_restamp.restamp_spec m k _ P2 K).
  split; f_equal; [exact (P_cascade.routed_later route k l P)|exact (P_cascade.renumbered_later k l P c)].
Qed.
Print Assumptions C114_clock.
(** But a packet without payload, whose counter the standard leaves as it was, gets the counter of the packet in front: if it had another one it is not kept. *)
Theorem C114_keeps_refuted : exists m c l l', c < 16 /\ Forall sound l /\ unbroken c l /\ renumber m c l = Ok l' /\ l' <> l.
Proof.
  exists Debug, 4, [ts_header 0x47 0 0 0 5 0 1 0 9 ++ 183 :: repeat 0xFF 183]. eexists. split; [reflexivity|].
  split; [constructor; [split; [reflexivity|split; [apply Facts.bytesb_iff; vm_compute; reflexivity|intros _; vm_compute; discriminate]]|constructor]|].
  split; [vm_compute; exact I|]. split; [vm_compute; reflexivity|]. intros E. apply (f_equal (fun l => nth 3 (hd [] l) 0)) in E. vm_compute in E. discriminate.
Qed.
Print Assumptions C114_keeps_refuted.

(** two PIDs change places twice; a null packet is dropped on the way; a third way round takes them elsewhere *)
Example C114_ex : let l := [ex_packet 5 1; ex_packet 0x1FFF 0; ex_packet 6 7; ex_packet 5 2] in let twice := [(Debug, swap 5 6); (Release, swap 5 6)] in
  Forall sound l /\ Forall fit twice /\ remaps twice l = Ok [ex_packet 5 1; ex_packet 6 7; ex_packet 5 2] /\
  remaps (twice ++ [(Debug, swap 6 0x1234)]) l = Ok [ex_packet 5 1; ex_packet 0x1234 7; ex_packet 5 2] /\
  renumbers [(Debug, 3); (Release, 14)] [ex_packet 5 1; ex_packet 5 1; ex_packet 5 9] = Ok [ex_packet 5 15; ex_packet 5 0; ex_packet 5 1].
Proof.
  cbv zeta. split.
  { repeat constructor; try (apply Facts.bytesb_iff; vm_compute; reflexivity); intros E; vm_compute in E; discriminate. }
  split.
  { assert (A : forall m, fit (m, swap 5 6)).
    { intros m x y. cbn [snd]. unfold swap. destruct (N.eqb_spec x 5); [intros [= <-]; reflexivity|]. destruct (N.eqb_spec x 6); [intros [= <-]; reflexivity|].
      destruct (N.ltb_spec x 0x1FFF); [intros [= <-]; lia|discriminate]. }
    constructor; [apply A|]. constructor; [apply A|constructor]. }
  split; [vm_compute; reflexivity|]. split; vm_compute; reflexivity.
Qed.
