(** Property theorems C110: printing readers and stream types with [{:?}] and [{:#?}]. [higher]: see M_layout. *)
From Coq Require Import String.
From Verif Require Import Prelude M_tables M_reader M_cbr M_debug M_show M_layout M_showr S_layout.
From Verif Require P_layout P_layout2.
Local Open Scope string_scope.
Local Open Scope list_scope.
Local Open Scope N_scope.

(** ** vocabulary of the statements *)
(** what the printed text can depend on: the state without the memory of the buffers *)
Definition visible_block (b : block) : nat * nat * N * N := (b_pos b, b_cap b, b_pcr b, b_delta b).
Definition visible {S} (c : cbr S) : S * nat * list (nat * nat * N * N) * N * N :=
  (c_inner c, c_parity c, map visible_block (c_blocks c), c_pid c, c_last c).
(** the reader inside is printed, and printed alike only if alike *)
Definition telling {S} (f : S -> res tree) : Prop :=
  (forall s, exists v, f s = Ok v /\ formed v) /\ (forall s s' v, f s = Ok v -> f s' = Ok v -> s = s').
Definition name_of (t : stream_type) : string :=
  match t with VIDEO => "VIDEO" | AUDIO => "AUDIO" | AIT => "AIT" | SUB => "SUB" | TTX => "TTX" | DATA => "DATA" end.

Lemma blocks_show (bs : list block) : show_vec block_show bs = Ok (SList (map (fun b => match block_show b with Ok v => v | _ => SNum 0 end) bs)).
Proof.
  unfold show_vec. assert (E : show_each block_show bs = Ok (map (fun b => match block_show b with Ok v => v | _ => SNum 0 end) bs)).
  { induction bs as [|b bs IH]; [reflexivity|]. cbn [show_each map]. unfold block_show at 1. cbn [bind]. rewrite IH. reflexivity. }
  rewrite E. reflexivity.
Qed.
Lemma blocks_same (bs cs : list block) :
  map (fun b => match block_show b with Ok v => v | _ => SNum 0 end) bs = map (fun b => match block_show b with Ok v => v | _ => SNum 0 end) cs <->
  map visible_block bs = map visible_block cs.
Proof.
  revert cs. induction bs as [|b bs IH]; intros [|c cs]; cbn [map]; split; intros H; try discriminate; try reflexivity.
  - injection H as H1 H2 H3 H4 H. apply Nnat.Nat2N.inj in H1. apply Nnat.Nat2N.inj in H2. apply IH in H. rewrite H. unfold visible_block. congruence.
  - injection H as H1 H2 H3 H4 H. apply IH in H. rewrite H. unfold block_show. rewrite H1, H2, H3, H4. reflexivity.
Qed.
Lemma cbr_well {S} (f : S -> res tree) : P_layout2.well f -> P_layout2.well (cbr_show f).
Proof.
  intros W c v H. unfold cbr_show in H. destruct (f (c_inner c)) as [u| |] eqn:E; cbn [bind] in H; try discriminate. apply W in E.
  rewrite blocks_show in H. cbn [bind] in H. injection H as <-.
  assert (B : formed (SList (map (fun b => match block_show b with Ok v => v | _ => SNum 0 end) (c_blocks c)))).
  { apply P_layout.formed_list, Forall_forall. intros x X. apply in_map_iff in X as (b & <- & _). cbn. repeat split; discriminate. }
  apply P_layout.formed_struct. split; [reflexivity|]. split; [discriminate|]. repeat (apply Forall_cons; [split; [reflexivity|]|]); try exact I; try assumption. constructor.
Qed.

(** * C110 *)
(** Printing a Cbr writes the same for states that differ only in the memory of the buffers, so nothing of uninitialised memory; and it shows all else. *)
Theorem C110_cbr : forall S (f : S -> res tree) higher alt c c', telling f ->
  (exists s, format_debug higher alt (cbr_show f) c = Ok s) /\
  (format_debug higher alt (cbr_show f) c = format_debug higher alt (cbr_show f) c' <-> visible c = visible c').
Proof.
  intros S f higher alt c c' [T1 T2]. assert (W : P_layout2.well f).
  { intros s v E. destruct (T1 s) as (u & U & F). congruence. }
  assert (D : forall x, exists s, format_debug higher alt (cbr_show f) x = Ok s).
  { intros x. unfold format_debug, cbr_show. destruct (T1 (c_inner x)) as (u & -> & _). cbn [bind]. rewrite blocks_show. cbn [bind]. eexists. reflexivity. }
  split; [apply D|]. split; intros H.
  - destruct (D c) as [s E]. pose proof E as E'. rewrite H in E'.
    destruct (P_layout2.format_same _ _ higher alt c c' s (cbr_well f W) (cbr_well f W) E E') as (v & F1 & F2).
    unfold cbr_show in F1, F2. destruct (T1 (c_inner c)) as (u & U & _). destruct (T1 (c_inner c')) as (u' & U' & _).
    rewrite U in F1. rewrite U' in F2. rewrite blocks_show in F1, F2. cbn [bind] in F1, F2.
    assert (G : Ok (A:=tree) v = Ok v) by reflexivity. rewrite <- F1 in G at 1. rewrite <- F2 in G. injection G as G1 G2 G3 G4 G5. apply Nnat.Nat2N.inj in G2.
    apply blocks_same in G3. subst u'. unfold visible. rewrite (T2 _ _ _ U U'), G2, G3, G4, G5. reflexivity.
  - unfold visible in H. injection H as H1 H2 H3 H4 H5. apply blocks_same in H3. unfold format_debug, cbr_show. rewrite !blocks_show, H1, H2, H3, H4, H5. reflexivity.
Qed.
Print Assumptions C110_cbr.
(** in particular right after Cbr::new, whatever the memory holds *)
Theorem C110_fresh : forall S (f : S -> res tree) higher alt s g0 g1 h0 h1,
  format_debug higher alt (cbr_show f) (cbr_new s g0 g1) = format_debug higher alt (cbr_show f) (cbr_new s h0 h1) /\
  format_debug higher alt (drain_show f) (drain_new s g0) = format_debug higher alt (drain_show f) (drain_new s h0).
Proof. intros. split; reflexivity. Qed.
Print Assumptions C110_fresh.
(** The readers print as the readers inside, in a structure; nothing of their buffers. *)
Theorem C110_readers : forall S (f : S -> res tree) higher alt (d d' : drain S) (s s' : S), telling f ->
  (format_debug higher alt (drain_show f) d = format_debug higher alt (drain_show f) d' <-> d_inner d = d_inner d') /\
  (format_debug higher alt (reader_show f) s = format_debug higher alt (reader_show f) s' <-> s = s') /\
  format_debug higher alt (reader_show f) s <> format_debug higher alt (drain_show f) d.
Proof.
  intros S f higher alt d d' s s' [T1 T2].
  assert (W : forall n v, is_name n = true -> formed v -> formed (SStruct n [("inner", v)])).
  { intros n v Hn Hv. apply P_layout.formed_struct. split; [exact Hn|]. split; [discriminate|]. constructor; [split; [reflexivity|exact Hv]|constructor]. }
  assert (W1 : P_layout2.well (drain_show f)).
  { intros x v H. unfold drain_show in H. destruct (T1 (d_inner x)) as (u & U & F). rewrite U in H. cbn [bind] in H. injection H as <-. apply W; [reflexivity|exact F]. }
  assert (W2 : P_layout2.well (reader_show f)).
  { intros x v H. unfold reader_show in H. destruct (T1 x) as (u & U & F). rewrite U in H. cbn [bind] in H. injection H as <-. apply W; [reflexivity|exact F]. }
  assert (D1 : forall x, exists t v, format_debug higher alt (drain_show f) x = Ok t /\ f (d_inner x) = Ok v /\ drain_show f x = Ok (SStruct "TsDrain" [("inner", v)])).
  { intros x. destruct (T1 (d_inner x)) as (u & U & F). unfold format_debug, drain_show. rewrite U. cbn [bind]. eexists _, u. split; [reflexivity|]. split; reflexivity. }
  assert (D2 : forall x, exists t v, format_debug higher alt (reader_show f) x = Ok t /\ f x = Ok v /\ reader_show f x = Ok (SStruct "TsReader" [("inner", v)])).
  { intros x. destruct (T1 x) as (u & U & F). unfold format_debug, reader_show. rewrite U. cbn [bind]. eexists _, u. split; [reflexivity|]. split; reflexivity. }
  split; [|split].
  - split; intros H; [|unfold format_debug, drain_show; rewrite H; reflexivity].
    destruct (D1 d) as (t & v & E & V & X). destruct (D1 d') as (t' & v' & E' & V' & X'). rewrite E, E' in H. injection H as ->.
    destruct (P_layout2.format_same _ _ higher alt d d' t' W1 W1 E E') as (w & F1 & F2). rewrite X in F1. rewrite X' in F2.
    apply (T2 _ _ v V). rewrite V'. congruence.
  - split; intros H; [|rewrite H; reflexivity].
    destruct (D2 s) as (t & v & E & V & X). destruct (D2 s') as (t' & v' & E' & V' & X'). rewrite E, E' in H. injection H as ->.
    destruct (P_layout2.format_same _ _ higher alt s s' t' W2 W2 E E') as (w & F1 & F2). rewrite X in F1. rewrite X' in F2.
    apply (T2 _ _ v V). rewrite V'. congruence.
  - intros H. destruct (D2 s) as (t & v & E & V & X). destruct (D1 d) as (t' & v' & E' & V' & X'). rewrite E, E' in H. injection H as ->.
    destruct (P_layout2.format_same _ _ higher alt s d t' W2 W1 E E') as (w & F1 & F2). rewrite X in F1. rewrite X' in F2. congruence.
Qed.
Print Assumptions C110_readers.
(** Stream types print as their names, all different. *)
Theorem C110_stream_type : forall higher alt t t',
  format_debug higher alt stream_type_show t = Ok (codes (name_of t)) /\ (name_of t = name_of t' -> t = t').
Proof. intros higher alt t t'. split; [destruct t; reflexivity|destruct t, t'; intros H; (reflexivity || discriminate)]. Qed.
Print Assumptions C110_stream_type.

(** a Cbr over a reader printed as a number; the block calls itself HttpBuffer *)
Definition ex_inner (n : N) : res tree := Ok (SNum n).
Example C110_ex :
  telling ex_inner /\
  format_debug (fun _ => true) false (cbr_show ex_inner) (cbr_new 5 [1; 2] [3]) =
    Ok (codes "Cbr { inner: 5, parity: 0, blocks: [HttpBuffer { pos: 0, cap: 0, pcr: 0, delta: 0 }, HttpBuffer { pos: 0, cap: 0, pcr: 0, delta: 0 }], pid: 8192, last_pcr: 2576980377600 }") /\
  format_debug (fun _ => true) false (drain_show (reader_show ex_inner)) (mkDrain 7 [0x47] 1) = Ok (codes "TsDrain { inner: TsReader { inner: 7 } }") /\
  visible (cbr_new 5 [1; 2] [3]) = visible (cbr_new 5 [] [9]) /\ visible (cbr_new 5 [] []) <> visible (cbr_new 6 [] []).
Proof.
  split; [split; [intros s; exists (SNum s); split; [reflexivity|exact I]|intros s s' v H1 H2; unfold ex_inner in *; congruence]|].
  split; [vm_compute; reflexivity|]. split; [vm_compute; reflexivity|]. split; [reflexivity|discriminate].
Qed.
