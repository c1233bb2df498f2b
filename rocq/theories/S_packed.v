(** Specification: sections packed back to back (ISO/IEC 13818-1 2.4.4.1): a packet in which a
    section ends and others start has a pointer_field that counts the bytes of the section that ends. *)
From Verif Require Import Prelude Layout S_ts S_psi S_system.

(** [begins l cc carry]: the packets [l] start a section behind a pointer_field of 0 and carry its
    first bytes [carry]; the last packet with payload has the counter [cc] *)
Definition begins (l : list packet) (cc : N) (carry : list N) : Prop :=
  exists k ks c, l = k :: ks /\
    packet_ok k /\ k_haspl k = true /\ k_pusi k = true /\ k_payload k = 0 :: c /\
    continues (k_cc k) ks /\
    match filter k_haspl ks with [] => True | k' :: _ => (3 <= length c + length (k_payload k'))%nat end /\
    cc = last_cc (k_cc k) ks /\ carry = c ++ carried ks.

(** a packet behind the one with counter [cc]: it ends a section with the bytes [r]; [rest] follows *)
Definition ends_section (cc : N) (k : packet) (r rest : list N) : Prop :=
  packet_ok k /\ k_haspl k = true /\ k_pusi k = true /\ k_cc k = (cc + 1) mod 16 /\
  k_payload k = N.of_nat (length r) :: r ++ rest /\ r <> [] /\ (length r < 183)%nat.

(** [chain cc carry ks ss left]: the bytes [carry] of a section are on their way; each packet of
    [ks] ends a section, may hold further whole ones, and starts the one that ends in the next packet.
    Altogether the sections [ss] end in [ks], and [left] follows. *)
Inductive chain : N -> list N -> list packet -> list (list N) -> list N -> Prop :=
| chain_nil cc left : chain cc left [] [] left
| chain_cons cc carry k ks s r whole next ss left : carry <> [] -> framed s -> s = carry ++ r -> Forall framed whole ->
    ends_section cc k r (concat whole ++ next) -> chain (k_cc k) next ks ss left ->
    chain cc carry (k :: ks) (s :: whole ++ ss) left.

(** a sequence of packets: sections on their own (as [carries] says) and chains; [sent] are the
    sections in it, [seen] those among them that are looked at: as many of a chain as it has packets *)
Inductive runs : list packet -> list (list N) -> list (list N) -> Prop :=
| runs_nil : runs [] [] []
| runs_alone l s rest sent seen : carries l s -> framed s -> runs rest sent seen -> runs (l ++ rest) (s :: sent) (s :: seen)
| runs_chain l cc carry ks ss left rest sent seen : begins l cc carry -> chain cc carry ks ss left -> ks <> [] -> runs rest sent seen ->
    runs (l ++ ks ++ rest) (ss ++ sent) (firstn (length ks) ss ++ seen).
