(** Proofs: how tables grow. *)
From Verif Require Import Prelude Layout Facts Facts2 S_ts S_crc S_utils S_psi M_bytes M_ts M_crc M_utils M_psi M_drive M_recv M_text M_desc S_desc
  M_tables S_tables P_bytes P_crc P_utils P_psi P_mux W_psi S_system S_origin P_origin S_grow.

Lemma slice_inv {A} (l : list A) a b r : slice l a b = Ok r -> (a <= b <= length l)%nat /\ length r = (b - a)%nat.
Proof.
  unfold slice. destruct (Nat.leb_spec a b), (Nat.leb_spec b (length l)); cbn [andb]; intros E; try discriminate. injection E as <-.
  split; [lia|]. rewrite firstn_length, skipn_length. lia.
Qed.
Lemma slice_from_inv {A} (l : list A) a r : slice_from l a = Ok r -> (a <= length l)%nat /\ length r = (length l - a)%nat.
Proof. unfold slice_from. destruct (Nat.leb_spec a (length l)); intros E; try discriminate. injection E as <-. rewrite skipn_length. auto. Qed.

Lemma descs_grow m s : forall fuel skip ds ds', descs_loop fuel m s skip ds = Ok ds' -> exists new, ds' = ds ++ new /\ (2 * length new <= length s - skip)%nat.
Proof.
  induction fuel as [|f IH]; intros skip ds ds' E; cbn [descs_loop] in E; [discriminate|].
  assert (Z : forall d, Ok ds = Ok d -> exists new, d = ds ++ new /\ (2 * length new <= length s - skip)%nat).
  { intros d H. injection H as <-. exists []. rewrite app_nil_r. cbn. split; [reflexivity|lia]. }
  destruct (Nat.leb_spec (skip + 2) (length s)) as [L|L]; [|exact (Z _ E)]. apply bind_inv in E as (n & _ & E). cbv zeta in E.
  destruct (Nat.ltb_spec (length s) (skip + 2 + N.to_nat n)) as [L2|L2]; [exact (Z _ E)|]. apply bind_inv in E as (p & _ & E). apply bind_inv in E as (d & _ & E).
  destruct (IH _ _ _ E) as (new & -> & B). exists (d :: new). rewrite <- app_assoc. split; [reflexivity|]. cbn [length]. lia.
Qed.
Lemma descs_grown m ds s ds' : descs_parse m ds s = Ok ds' -> exists new, ds' = ds ++ new /\ (2 * length new <= length s)%nat.
Proof. intros E. destruct (descs_grow m s _ _ _ _ E) as (new & H & B). exists new. split; [exact H|lia]. Qed.
Lemma items_grow {A} h (descs : A -> list desc) parse : (forall s i, parse s = Ok i -> (h + 2 * length (descs i) <= length s)%nat) ->
  forall ptr fuel skip items items', items_loop fuel h parse ptr skip items = Ok items' -> exists new, items' = items ++ new /\ (least h descs new <= length ptr - skip)%nat.
Proof.
  intros P ptr. induction fuel as [|f IH]; intros skip items items' E; cbn [items_loop] in E; [discriminate|].
  assert (Z : forall d, Ok items = Ok d -> exists new, d = items ++ new /\ (least h descs new <= length ptr - skip)%nat).
  { intros d H. injection H as <-. exists []. rewrite app_nil_r. cbn. split; [reflexivity|lia]. }
  destruct (Nat.leb_spec (skip + h) (length ptr)) as [L|L]; [|exact (Z _ E)]. apply bind_inv in E as (v & _ & E). cbv zeta in E.
  set (n := (h + N.to_nat (N.land v 4095))%nat) in *. destruct (Nat.ltb_spec (length ptr) (skip + n)) as [L2|L2]; [exact (Z _ E)|].
  apply bind_inv in E as (s & Es & E). apply bind_inv in E as (i & Ei & E). apply slice_inv in Es as [_ Es]. apply P in Ei.
  destruct (IH _ _ _ E) as (new & -> & B). exists (i :: new). rewrite <- app_assoc. split; [reflexivity|]. cbn [least fold_right]. fold (least h descs new). lia.
Qed.
Lemma items_grown {A} h (descs : A -> list desc) parse ptr items items' : (forall s i, parse s = Ok i -> (h + 2 * length (descs i) <= length s)%nat) ->
  parse_items h parse ptr items = Ok items' -> exists new, items' = items ++ new /\ (least h descs new <= length ptr)%nat.
Proof. intros P E. destruct (items_grow h descs parse P ptr _ _ _ _ E) as (new & H & B). exists new. split; [exact H|lia]. Qed.

Ltac binds := repeat match goal with H : bind _ _ = Ok _ |- _ => apply bind_inv in H as (? & ? & H) end.
Ltac item := intros s i E; unfold pmt_item_parse, nit_item_parse, sdt_item_parse, eit_item_parse in E; binds; injection E as <-;
  match goal with H : slice_from _ _ = Ok ?d, K : descs_parse _ _ ?d = Ok _ |- _ => apply slice_from_inv in H as [? H]; apply descs_grown in K as (? & -> & K) end;
  cbn [app pmti_descs niti_descs sdti_descs eiti_descs]; idtac; lia.
Lemma pmt_item_room m : forall s i, pmt_item_parse m s = Ok i -> (5 + 2 * length (pmti_descs i) <= length s)%nat. Proof. item. Qed.
Lemma nit_item_room m : forall s i, nit_item_parse m s = Ok i -> (6 + 2 * length (niti_descs i) <= length s)%nat. Proof. item. Qed.
Lemma sdt_item_room m : forall s i, sdt_item_parse m s = Ok i -> (5 + 2 * length (sdti_descs i) <= length s)%nat. Proof. item. Qed.
Lemma eit_item_room m : forall s i, eit_item_parse m s = Ok i -> (12 + 2 * length (eiti_descs i) <= length s)%nat. Proof. item. Qed.

Lemma grown_none {A} h (descs : A -> list desc) items ds room : grown h descs items items ds ds room.
Proof. exists [], []. rewrite !app_nil_r. cbn. split; [reflexivity|]. split; [reflexivity|lia]. Qed.
Lemma least_plain {A} h (l : list A) : least h (fun _ => []) l = (h * length l)%nat.
Proof. induction l as [|x l IH]; [cbn; lia|]. change (least h (fun _ => []) (x :: l)) with (h + 0 + least h (fun _ => []) l)%nat. rewrite IH. cbn [length]. lia. Qed.
Lemma pat_loop_grow ptr : forall fuel skip items items', pat_loop fuel ptr skip items = Ok items' ->
  exists new, items' = items ++ new /\ (4 * length new <= length ptr - skip)%nat.
Proof.
  induction fuel as [|f IH]; intros skip items items' E; cbn [pat_loop] in E; [discriminate|].
  destruct (Nat.leb_spec (skip + 4) (length ptr)) as [L|L].
  - binds. destruct (IH _ _ _ E) as (new & -> & B). eexists (_ :: new). rewrite <- app_assoc. split; [reflexivity|]. cbn [length]. lia.
  - injection E as <-. exists []. rewrite app_nil_r. cbn. split; [reflexivity|lia].
Qed.
Lemma body_inv p n r : body_from p n = Ok r -> (n + length r = p_size p - 4)%nat.
Proof. unfold body_from. intros E. apply slice_inv in E as [? ?]. lia. Qed.
Lemma check_size (c : bool) (n : nat) p (k : res bool) : (if negb (n <=? p_size p)%nat then Ok false else k) = Ok true -> (n <= p_size p)%nat.
Proof. destruct (Nat.leb_spec n (p_size p)); [auto|discriminate]. Qed.

Lemma pat_grown m t p u : pat_parse m t p = Ok u -> u = t \/ grown 4 (fun _ => []) (pat_items t) (pat_items u) [] [] (p_size p - 12).
Proof.
  unfold pat_parse. intros E. apply bind_inv in E as (c & C & E). destruct c; cbn [negb] in E; [right|left; congruence]. binds. injection E as <-. cbn [pat_items].
  match goal with H : body_from _ _ = Ok _ |- _ => apply body_inv in H; rename H into B end.
  match goal with H : pat_loop _ _ _ _ = Ok _ |- _ => apply pat_loop_grow in H as (new & -> & G) end.
  exists new, []. split; [reflexivity|]. split; [reflexivity|]. rewrite least_plain. cbn [length]. lia.
Qed.
Ltac entries h room :=
  match goal with H : parse_items _ _ _ _ = Ok _ |- _ => apply (items_grown h _ _ _ _ _ room) in H as (new & -> & G) end;
  match goal with H : body_from _ _ = Ok _ |- _ => apply body_inv in H; rename H into B end.
Lemma pmt_grown m t p u : pmt_parse m t p = Ok u -> u = t \/ grown 5 pmti_descs (pmt_items t) (pmt_items u) (pmt_descs t) (pmt_descs u) (p_size p - 16).
Proof.
  unfold pmt_parse. intros E. apply bind_inv in E as (c & C & E). destruct c; cbn [negb] in E; [right|left; congruence]. binds. injection E as <-. cbn [pmt_items pmt_descs].
  entries 5%nat (pmt_item_room m).
  match goal with K : descs_parse _ _ _ = Ok _, H : slice _ _ _ = Ok _ |- _ => apply slice_inv in H as [H H']; apply descs_grown in K as (nds & -> & K) end.
  exists new, nds. split; [reflexivity|]. split; [reflexivity|]. lia.
Qed.
Lemma nit_grown m t p u : nit_parse m t p = Ok u -> u = t \/ grown 6 niti_descs (nit_items t) (nit_items u) (nit_descs t) (nit_descs u) (p_size p - 16).
Proof.
  unfold nit_parse. intros E. apply bind_inv in E as (c & C & E). destruct c; cbn [negb] in E; [right|left; congruence]. binds. injection E as <-. cbn [nit_items nit_descs].
  entries 6%nat (nit_item_room m).
  match goal with K : descs_parse _ _ _ = Ok _, H : slice _ _ _ = Ok _ |- _ => apply slice_inv in H as [H H']; apply descs_grown in K as (nds & -> & K) end.
  exists new, nds. split; [reflexivity|]. split; [reflexivity|]. lia.
Qed.
Lemma sdt_grown m t p u : sdt_parse m t p = Ok u -> u = t \/ grown 5 sdti_descs (sdt_items t) (sdt_items u) [] [] (p_size p - 15).
Proof.
  unfold sdt_parse. intros E. apply bind_inv in E as (c & C & E). destruct c; cbn [negb] in E; [right|left; congruence]. binds. injection E as <-. cbn [sdt_items].
  entries 5%nat (sdt_item_room m). exists new, []. split; [reflexivity|]. split; [reflexivity|]. cbn [length]. lia.
Qed.
Lemma eit_grown m t p u : eit_parse m t p = Ok u -> u = t \/ grown 12 eiti_descs (eit_items t) (eit_items u) [] [] (p_size p - 18).
Proof.
  unfold eit_parse. intros E. apply bind_inv in E as (c & C & E). destruct c; cbn [negb] in E; [right|left; congruence]. binds. injection E as <-. cbn [eit_items].
  entries 12%nat (eit_item_room m). exists new, []. split; [reflexivity|]. split; [reflexivity|]. cbn [length]. lia.
Qed.
Lemma land_12 v : (N.to_nat (N.land v 4095) <= N.to_nat 4095)%nat.
Proof. change 4095 with (N.ones 12) at 1. rewrite N.land_ones. assert (v mod 2 ^ 12 < 2 ^ 12) by (apply N.mod_lt; discriminate). change (2 ^ 12) with 4096 in *. lia. Qed.
Lemma tot_grown m t p u : tot_parse m t p = Ok u -> u = t \/ exists nds, tot_descs u = tot_descs t ++ nds /\ (2 * length nds <= Nat.min (length (p_buffer p) - 10) (N.to_nat 4095))%nat.
Proof.
  unfold tot_parse. intros E. apply bind_inv in E as (c & C & E). destruct c; cbn [negb] in E; [right|left; congruence]. binds. injection E as <-. cbn [tot_descs].
  match goal with K : descs_parse _ _ _ = Ok _, H : slice _ _ (_ + N.to_nat (N.land ?v _)) = Ok _ |- _ => apply slice_inv in H as [H H']; apply descs_grown in K as (nds & -> & K); pose proof (land_12 v) end.
  exists nds. split; [reflexivity|]. lia.
Qed.

(** a stream *)
Lemma grown_trans {A} h (descs : A -> list desc) i1 i2 i3 d1 d2 d3 r1 r2 : grown h descs i1 i2 d1 d2 r1 -> grown h descs i2 i3 d2 d3 r2 -> grown h descs i1 i3 d1 d3 (r1 + r2).
Proof.
  intros (n1 & e1 & -> & -> & L1) (n2 & e2 & -> & -> & L2). exists (n1 ++ n2), (e1 ++ e2). rewrite !app_assoc. split; [reflexivity|]. split; [reflexivity|].
  assert (K : least h descs (n1 ++ n2) = (least h descs n1 + least h descs n2)%nat).
  { clear. unfold least. induction n1 as [|x n1 IH]; cbn [app fold_right]; [reflexivity|]. rewrite IH. lia. }
  rewrite K, app_length. lia.
Qed.
Lemma section_length_max s : (section_length s <= N.to_nat 4098)%nat.
Proof. unfold section_length. pose proof (field_lt s 12 12) as H. change (2 ^ N.of_nat 12) with 4096 in H. lia. Qed.
Section Stream.
Context {T A : Type} (m : mode) (parse : T -> psi -> res T) (h room : nat) (descs : A -> list desc) (items : T -> list A) (ds : T -> list desc).
Context (G : forall t p u, (p_size p <= N.to_nat 4098)%nat -> parse t p = Ok u -> u = t \/ grown h descs (items t) (items u) (ds t) (ds u) room).
Lemma stream_grown l : forall d p t q u, Forall ts_packet (d ++ l) -> mux_all m psi_default d = Ok p -> receive m parse p t l = Ok (q, u) ->
  grown h descs (items t) (items u) (ds t) (ds u) (length l * room).
Proof.
  induction l as [|x l IH]; intros d p t q u P D E; cbn [receive] in E; [injection E as _ <-; apply grown_none|].
  apply bind_inv in E as (p1 & E1 & E). apply bind_inv in E as (t1 & E2 & E).
  assert (D1 : mux_all m psi_default (d ++ [x]) = Ok p1) by (rewrite mux_all_snoc, D; exact E1).
  assert (P' : Forall ts_packet ((d ++ [x]) ++ l)) by (rewrite <- app_assoc; exact P).
  specialize (IH (d ++ [x]) p1 t1 q u P' D1 E). cbn [length]. rewrite Nat.mul_succ_l, Nat.add_comm.
  apply (grown_trans h descs _ (items t1) _ _ (ds t1)); [|exact IH].
  assert (P1 : Forall ts_packet (d ++ [x])) by (apply Forall_app in P'; apply P').
  destruct (reachable_inv m (d ++ [x]) p1 P1 D1) as ((_ & C) & _).
  assert (Z : (p_size p1 <= N.to_nat 4098)%nat).
  { destruct C as [[-> _]|[_ ->]]; [lia|]. apply section_length_max. }
  destruct (G t p1 t1 Z E2) as [->|H]; [apply grown_none|exact H].
Qed.
End Stream.
