(** Tables passed on from relay to relay. *)
From Verif Require Import Prelude Layout S_ts S_psi S_tables P_psi M_ts M_reader S_reader M_psi M_recv M_tower P_tower M_chain.

Lemma chop_full k : forall l, (length l = k * 184)%nat -> Forall (fun x => length x = 184%nat) (chop 184 l).
Proof.
  induction k as [|k IH]; intros l L.
  - destruct l; [rewrite chop_nil; constructor|discriminate].
  - rewrite chop_step; [|lia|intros ->; cbn in L; lia]. constructor; [rewrite firstn_length; lia|]. apply IH. rewrite skipn_length. lia.
Qed.
Lemma pad184_full l : exists k, (length (pad184 l) = k * 184)%nat.
Proof.
  exists ((length l + (184 - length l mod 184) mod 184) / 184)%nat. unfold pad184. rewrite app_length, repeat_length.
  zify. Z.div_mod_to_equations. lia.
Qed.
Lemma header_first pusi pid cc c : (length (ts_header 0x47 0 pusi 0 pid 0 0 1 cc ++ c) = 4 + length c)%nat /\ hd 0 (ts_header 0x47 0 pusi 0 pid 0 0 1 cc ++ c) = 0x47.
Proof. split; [rewrite app_length; f_equal|]; reflexivity. Qed.
Lemma numbered pid : forall ps cc first, Forall (fun x => length x = 184%nat) ps -> Forall (fun pk => length pk = 188%nat /\ hd 0 pk = 0x47) (number_packets pid cc first ps).
Proof.
  induction ps as [|c ps IH]; intros cc first F; [constructor|]. inversion F; subst. cbn [number_packets]. constructor; [|apply IH; assumption].
  destruct (header_first (if first then 1 else 0) pid cc c) as [-> ->]. split; [lia|reflexivity].
Qed.
Lemma stream_whole pid : forall ss cc, Forall (fun pk => length pk = 188%nat /\ hd 0 pk = 0x47) (stream pid cc ss).
Proof.
  induction ss as [|s ss IH]; intros cc; [constructor|]. cbn [stream]. cbv zeta. apply Forall_app. split; [|apply IH]. unfold section_packets. apply numbered.
  destruct (pad184_full (0 :: s)) as [k K]. exact (chop_full k _ K).
Qed.
Lemma few (pks : list (list N)) : Forall (fun pk => length pk = 188%nat /\ hd 0 pk = 0x47) pks -> (length pks <= length (concat pks))%nat.
Proof. induction 1 as [|pk pks [L _] _ IH]; [cbn; lia|]. cbn [concat length]. rewrite app_length. lia. Qed.

Definition passes {T} (demux : mode -> T -> N -> N -> list N -> res (N * list N)) (parse : mode -> T -> psi -> res T) (new t : T) : Prop :=
  forall m pid cc dst, pid < 8192 -> cc < 16 -> exists ss, demux m t pid cc dst = Ok (next_cc pid cc ss, dst ++ concat (stream pid cc ss)) /\
  forall m' p, exists q, receive m' (parse m') p new (stream pid cc ss) = Ok (q, t).
Definition hop_ok (h : hop) : Prop := h_pid h < 8192 /\ h_cc h < 16 /\ (forall i, length (h_garbage h i) = 188%nat) /\ (188 <= length (h_buffer h))%nat.
Lemma pass_on_same {T} demux parse (new t : T) h : passes demux parse new t -> hop_ok h -> pass_on demux parse new h t = Ok t.
Proof.
  intros P (Hp & Hc & G & B). destruct (P (h_out h) (h_pid h) (h_cc h) [] Hp Hc) as (ss & E & R). unfold pass_on. rewrite E. cbn [bind app]. cbv zeta.
  set (pks := stream (h_pid h) (h_cc h) ss) in *. pose proof (stream_whole (h_pid h) ss (h_cc h)) as W. fold pks in W.
  destruct (tower_reads (S (length (concat pks))) (h_height h) (S (length (concat pks))) (mkSource (concat pks) (map Chunk (h_pieces h))) (h_garbage h) (h_buffer h) pks G) as [s' E2].
  - cbn [s_data]. lia.
  - cbn [s_sched]. apply Forall_forall. intros e I. apply in_map_iff in I. destruct I as (x & <- & _). exact Logic.I.
  - cbn [s_data]. apply aligned. exact W.
  - exact B.
  - rewrite E2. cbn [bind]. rewrite firstn_all2 by (pose proof (few pks W); lia). destruct (R (h_in h) (h_psi h)) as [q ->]. reflexivity.
Qed.
Lemma pass_along_same {T} demux parse (new t : T) : passes demux parse new t -> forall hs, Forall hop_ok hs -> pass_along demux parse new hs t = Ok t.
Proof.
  intros P. induction 1 as [|h hs Hh _ IH]; [reflexivity|]. cbn [pass_along]. rewrite (pass_on_same demux parse new t h P Hh). exact IH.
Qed.

(** one relay, when what is sent is known *)
Lemma pass_on_of {T} demux parse (new t u : T) h cc' ss q : hop_ok h -> demux (h_out h) t (h_pid h) (h_cc h) [] = Ok (cc', concat (stream (h_pid h) (h_cc h) ss)) ->
  receive (h_in h) (parse (h_in h)) (h_psi h) new (stream (h_pid h) (h_cc h) ss) = Ok (q, u) -> pass_on demux parse new h t = Ok u.
Proof.
  intros (Hp & Hc & G & B) E R. unfold pass_on. rewrite E. cbn [bind]. cbv zeta.
  set (pks := stream (h_pid h) (h_cc h) ss) in *. pose proof (stream_whole (h_pid h) ss (h_cc h)) as W. fold pks in W.
  destruct (tower_reads (S (length (concat pks))) (h_height h) (S (length (concat pks))) (mkSource (concat pks) (map Chunk (h_pieces h))) (h_garbage h) (h_buffer h) pks G) as [s' E2].
  - cbn [s_data]. lia.
  - cbn [s_sched]. apply Forall_forall. intros e I. apply in_map_iff in I. destruct I as (x & <- & _). exact Logic.I.
  - cbn [s_data]. apply aligned. exact W.
  - exact B.
  - rewrite E2. cbn [bind]. rewrite firstn_all2 by (pose proof (few pks W); lia). rewrite R. reflexivity.
Qed.
