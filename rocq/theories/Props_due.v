(** C106: when PES packets are due. Specification: S_due. *)
From Verif Require Import Prelude Layout S_ts S_measure S_restamp S_play S_due M_ts M_pes M_due.
From Verif Require P_due Facts.

(** a program with clock references on one PID and PES packets with time stamps on another, or on the same; anything else is on other PIDs. The player
    gets for each PES packet behind the first PCR the time until its presentation, in milliseconds rounded down *)
Theorem C106_due : forall m pcr_pid pid l, pid < 8192 -> Forall (fun e => length (fst (fst e)) = 188%nat /\ bytes (fst (fst e))) l ->
  Forall (tick_ok pcr_pid) l -> Forall (start_ok pid) l -> Forall ahead (waits None l) ->
  due m pcr_pid pid None (map (fun e => fst (fst e)) l) = Ok (map (fun w => ticks w / 90) (waits None l)).
Proof. intros m pcr_pid pid l P F T S A. exact (P_due.due_waits m pcr_pid pid l P F T S None A). Qed.
Print Assumptions C106_due.

(** [r] ms: off by less than a tick of the PTS clock on one side and a millisecond on the other, also where the clock wraps *)
Theorem C106_close : forall t p, ahead (t, p) -> let r := ticks (t, p) / 90 in 27000 * r + t < 300 * p + 300 /\ 300 * p <= t + 27000 * (r + 1).
Proof. intros t p. exact (P_due.wait_close (t, p)). Qed.
Print Assumptions C106_close.

(** ** examples *)
Definition clock_field (t : N) : list N := 0x10 :: pcr_bytes ((t / 300) mod 2 ^ 33) 63 (t mod 300).
Definition sound (p : N) : pes := Timed 0xC0 5 (Some (p mod 2 ^ 33)) None 0 [] [1; 2; 3].
(** a packet with PCR in which a PES packet starts and ends *)
Definition both (t p : N) : piece := let w := pes_bytes (sound p) false in mkPiece 0 0 (Some (clock_field t ++ repeat 0xFF (183 - 7 - length w))) w.
Definition only (p : N) : piece := let w := pes_bytes (sound p) false in mkPiece 0 0 (Some (0 :: repeat 0xFF (183 - 1 - length w))) w.
Definition moments (t p q : N) : list moment :=
  [(es_packet 0x100 1 (only p), None, Some p); (es_packet 0x100 1 (both t p), Some t, Some p); (es_packet 0x101 1 (only p), None, None); (es_packet 0x100 1 (only q), None, Some q)].

(** a PES packet that is late is taken for one of the next turn of the clock, 26.5 hours ahead *)
Theorem C106_late_refuted : exists t p, t = 300 * (p + 1) /\ forall m, due m 0x100 0x100 None [es_packet 0x100 1 (both t p)] = Ok [95443717].
Proof. exists 27300, 90. split; [reflexivity|]. intros []; vm_compute; reflexivity. Qed.
Print Assumptions C106_late_refuted.

(** 5 ms in front of the turn of the clock; PES packets for 10 and 500 ms later *)
Example C106_ex : let t := 300 * (2 ^ 33 - 450) in let p := 2 ^ 33 + 450 in let q := 2 ^ 33 - 450 + 45000 in let l := moments t p q in
  Forall (fun e => length (fst (fst e)) = 188%nat /\ bytes (fst (fst e))) l /\ Forall (tick_ok 0x100) l /\ Forall (start_ok 0x100) l /\ Forall ahead (waits None l) /\
  waits None l = [(t, p); (t, q)] /\ forall m, due m 0x100 0x100 None (map (fun e => fst (fst e)) l) = Ok [9; 499].
Proof.
  intros t p q l. split; [repeat (constructor; [split; [vm_compute; reflexivity|apply Facts.bytesb_iff; vm_compute; reflexivity]|]); constructor|].
  split. { constructor; [right; vm_compute; reflexivity|]. constructor; [split; [vm_compute; reflexivity|]; split; vm_compute; reflexivity|]. repeat (constructor; [left; vm_compute; discriminate|]).
    constructor; [right; vm_compute; reflexivity|constructor]. }
  assert (O : forall v x, In v [p; q] -> (x = only v \/ x = both t v) -> start_ok 0x100 (es_packet 0x100 1 x, None, Some v)).
  { intros v x V X. exists x, [], 0xC0, 5, None, 0, [], [1; 2; 3], false. cbv zeta.
    split. { split; [reflexivity|]. split; [vm_compute; intuition discriminate|]. split; [apply N.mod_lt; discriminate|]. split; [exact I|]. split; [reflexivity|]. split; [apply Nat.leb_le; destruct V as [<-|[<-|[]]]; vm_compute; reflexivity|].
      split; apply Facts.bytesb_iff; reflexivity. }
    split; [right; destruct V as [<-|[<-|[]]]; vm_compute; reflexivity|].
    split. { split; [discriminate|]. split; [constructor; [|constructor]|]; destruct V as [<-|[<-|[]]], X as [->| ->]; try (split; [vm_compute; reflexivity|split; apply Facts.bytesb_iff; vm_compute; reflexivity]); vm_compute; reflexivity. }
    split; [apply Nat.leb_le; destruct V as [<-|[<-|[]]], X as [->| ->]; vm_compute; reflexivity|reflexivity]. }
  split. { constructor; [apply (O p); [left; reflexivity|left; reflexivity]|]. constructor; [apply (O p); [left; reflexivity|right; reflexivity]|]. constructor; [left; vm_compute; discriminate|].
    constructor; [apply (O q); [right; left; reflexivity|left; reflexivity]|constructor]. }
  split; [repeat (constructor; [split; [apply N.leb_le; vm_compute; reflexivity|vm_compute; reflexivity]|]); constructor|]. split; [reflexivity|]. intros []; vm_compute; reflexivity.
Qed.
