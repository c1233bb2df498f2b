(** Proofs: the normal form is in range, and a receiver reads it. *)
From Verif Require Import Prelude Layout Facts S_ts S_crc S_utils S_psi S_text M_bytes M_utils M_text M_psi M_desc S_desc M_tables S_tables S_sender S_wide P_desc P_wide.

Lemma mod_lt2 a b : b <> 0 -> a mod b < b. Proof. apply N.mod_lt. Qed.
Ltac modlt := first [apply N.mod_lt; discriminate | (eapply N.lt_le_trans; [apply N.mod_lt; discriminate|discriminate])].
Ltac lay := rewrite ?app_length, ?layout_length by reflexivity.
Lemma tw_58 i : length (item_58 (fit_58 i)) = length (item_58 i).
Proof. unfold item_58. lay. reflexivity. Qed.
Lemma tw_83 i : length (item_83 (fit_83 i)) = length (item_83 i).
Proof. unfold item_83. lay. reflexivity. Qed.
Lemma flat_len {A} (g : A -> list N) (f : A -> A) l : (forall i, length (g (f i)) = length (g i)) -> length (flat_map g (map f l)) = length (flat_map g l).
Proof. intros H. induction l as [|i r IH]; [reflexivity|]. cbn [map flat_map]. rewrite !app_length, H, IH. reflexivity. Qed.
Lemma fit_body_len d : length (body (fit_desc d)) = length (body d).
Proof.
  destruct d; cbn [fit_desc body]; try reflexivity; try (lay; reflexivity).
  - apply flat_len, tw_58.
  - apply flat_len, tw_83.
Qed.
Lemma fit_tag d : desc_tag (fit_desc d) = desc_tag d. Proof. destruct d; reflexivity. Qed.
Lemma fit_wire_len ds : length (wire (fit_loop ds)) = length (wire ds).
Proof.
  unfold wire, fit_loop, loop_of. induction ds as [|d r IH]; [reflexivity|]. cbn [map flat_map fst snd] in *. rewrite !app_length, IH. unfold tlv. cbn [length]. rewrite fit_body_len. reflexivity.
Qed.

Lemma mul_div_le a b : a / b * b <= a. Proof. destruct (N.eq_dec b 0) as [->|H]; [rewrite N.mul_0_r; lia|]. rewrite N.mul_comm. apply N.mul_div_le. exact H. Qed.
Lemma le_lt a b c : a <= b -> b < c -> a < c. Proof. lia. Qed.
Lemma fit_fields d : desc_typed d -> digits d -> fields_ok (fit_desc d).
Proof.
  destruct d; cbn [desc_typed digits fit_desc fields_ok]; intros T D; try exact T; cbn [d09_caid d09_pid d09_data d0E_bitrate d43_freq d43_orbital d43_we d43_pol d43_rof d43_s2 d43_mod d43_rate d43_fec
    d44_freq d44_outer d44_mod d44_rate d44_fec d4E_num d4E_last d4E_lang d4E_items d4E_text d5A_freq d5A_bw d5A_prio d5A_ts d5A_fec d5A_mod d5A_hier d5A_hp d5A_lp d5A_guard d5A_trans d5A_other].
  - destruct T as (T1 & T2 & T3). repeat split; [exact T1|modlt|exact T3].
  - rewrite Forall_forall in *. intros i Hi. destruct (T i Hi) as [T1 T2]. split; [split; [exact T1|exact (D i Hi)]|exact T2].
  - modlt.
  - destruct D as (D1 & D2 & D3 & D4). repeat split; try modlt; try assumption; (eapply le_lt; [apply mul_div_le|assumption]).
  - destruct D as (D1 & D2), T as (T1 & T2 & T3 & T4 & T5). repeat split; try modlt; try assumption; (eapply le_lt; [apply mul_div_le|assumption]).
  - destruct T as (T1 & T2 & T3). repeat split; try apply T1; try apply T2; try apply T3; assumption.
  - destruct T as (T1 & T2 & T3 & T4 & T5). repeat split; try modlt; try apply T3; try apply T5; try assumption.
  - rewrite Forall_forall in *. intros i Hi. apply in_map_iff in Hi as (j & <- & Hj). destruct (T j Hj) as (T1 & T2 & T3 & T4 & T5 & T6), (D j Hj) as (D1 & D2).
    unfold ok_58i, fit_58. cbn [d58_code d58_region d58_pol d58_offset d58_time d58_next]. repeat split; try modlt; try apply T1; try assumption.
  - destruct T as (T1 & T2 & T3 & T4 & T5 & T6 & T7 & T8 & T9 & T10 & T11 & T12). repeat split; try modlt. eapply le_lt; [apply mul_div_le|assumption].
  - rewrite Forall_forall in *. intros i Hi. apply in_map_iff in Hi as (j & <- & Hj). destruct (T j Hj) as (T1 & T2 & T3).
    unfold fit_83. cbn [d83_sid d83_visible d83_lcn]. repeat split; try modlt; assumption.
Qed.
Lemma fit_ok d : desc_typed d -> digits d -> (length (body d) < 256)%nat -> no_items d -> desc_ok (fit_desc d).
Proof.
  intros T D L Z. split; [exact (fit_fields d T D)|]. split; [rewrite fit_body_len; exact L|]. destruct d; exact Z.
Qed.
Lemma fit_loop_ok ds : descs_typed ds -> loop_sized ds -> loop_ok (fit_loop ds).
Proof.
  intros T [D L]. split; [|rewrite fit_wire_len; exact L]. unfold fit_loop. rewrite Forall_forall in *. intros d Hd. apply in_map_iff in Hd as (e & <- & He).
  unfold descs_typed in T. rewrite Forall_forall in T. destruct (D e He) as (D1 & D2 & D3). exact (fit_ok e (T e He) D1 D2 D3).
Qed.

(** values in range are left as they are *)
Lemma lor_div_small a b k : b < k -> N.lor a (b / k) = a.
Proof. intros H. rewrite N.div_small by exact H. apply N.lor_0_r. Qed.
Ltac small := repeat match goal with
  | |- context [?a / ?k] => rewrite (N.div_small a k) by (eapply N.lt_le_trans; [eassumption|discriminate])
  end; rewrite ?N.lor_0_r, ?N.lor_0_l; repeat match goal with |- context [?a mod ?k] => rewrite (N.mod_small a k) by first [assumption | (eapply N.lt_le_trans; [eassumption|discriminate])] end.
Lemma round_id a k : k <> 0 -> a mod k = 0 -> a / k * k = a.
Proof. intros K H. pose proof (N.div_mod a k K). lia. Qed.
Lemma map_same {A} (f : A -> A) l : Forall (fun i => f i = i) l -> map f l = l.
Proof. induction l as [|i r IH]; intros H; [reflexivity|]. inversion H; subst. cbn [map]. rewrite IH by assumption. f_equal. assumption. Qed.
Lemma fit_same d : desc_ok d -> exact d -> fit_desc d = d.
Proof.
  intros (F & _ & _) X. destruct d as [d|items|d|name|items|d|d|d|d|d|t|items|d|items|d]; try reflexivity; cbn [fields_ok exact fit_desc] in *.
  - destruct F as (F1 & F2 & F3). small. destruct d; reflexivity.
  - small. destruct d; reflexivity.
  - destruct F as (F1 & F2 & F3 & F4 & F5 & F6 & F7 & F8 & F9), X as (X1 & X2). rewrite !round_id by first [discriminate|assumption]. small. destruct d; reflexivity.
  - destruct F as (F1 & F2 & F3 & F4 & F5). rewrite !round_id by first [discriminate|assumption]. small. destruct d; reflexivity.
  - destruct F as (F1 & F2 & F3). small. destruct d; reflexivity.
  - f_equal. apply map_same. eapply Forall_impl; [|exact F]. intros i (I1 & I2 & I3 & I4 & I5 & I6). unfold fit_58. small. destruct i; reflexivity.
  - rewrite round_id by first [discriminate|assumption]. destruct F as (F1 & F2 & F3 & F4 & F5 & F6 & F7 & F8 & F9 & F10 & F11 & F12). small. destruct d; reflexivity.
  - f_equal. apply map_same. eapply Forall_impl; [|exact F]. intros i (I1 & I2 & I3). unfold fit_83. small. destruct i; reflexivity.
Qed.

(** ** tables *)
Lemma map_Forall {A} (f : A -> A) (P Q : A -> Prop) l : (forall i, P i -> Q (f i)) -> Forall P l -> Forall Q (map f l).
Proof. intros H F. induction F; constructor; auto. Qed.
Lemma map_Forall2 {A} (f : A -> A) (P R Q : A -> Prop) l : (forall i, P i -> R i -> Q (f i)) -> Forall P l -> Forall R l -> Forall Q (map f l).
Proof. intros H F. induction F; intros G; inversion G; subst; constructor; auto. Qed.
Lemma range_pat t : pat_typed t -> pat_ok (fit_pat t).
Proof.
  intros (T1 & T2 & T3). split; [modlt|]. split; [exact T2|]. refine (map_Forall _ _ _ _ _ T3). intros i (A & B). split; [exact A|modlt].
Qed.
Lemma range_pmt t : pmt_typed t -> loop_sized (pmt_descs t) -> Forall (fun i => loop_sized (pmti_descs i)) (pmt_items t) -> pmt_ok (fit_pmt t).
Proof.
  intros (T1 & T2 & T3 & T4 & T5) D F. split; [modlt|]. split; [exact T2|]. split; [modlt|]. split; [exact (fit_loop_ok _ T4 D)|].
  refine (map_Forall2 _ _ _ _ _ _ T5 F). intros i (A & B & C) G. split; [exact A|]. split; [modlt|]. exact (fit_loop_ok _ C G).
Qed.
Lemma range_nit t : nit_typed t -> loop_sized (nit_descs t) -> Forall (fun i => loop_sized (niti_descs i)) (nit_items t) -> nit_ok (fit_nit t).
Proof.
  intros (T1 & T2 & T3 & T4 & T5) D F. split; [exact T1|]. split; [modlt|]. split; [exact T3|]. split; [exact (fit_loop_ok _ T4 D)|].
  refine (map_Forall2 _ _ _ _ _ _ T5 F). intros i (A & B & C) G. split; [exact A|]. split; [exact B|]. exact (fit_loop_ok _ C G).
Qed.
Lemma range_sdt t : sdt_typed t -> Forall (fun i => loop_sized (sdti_descs i)) (sdt_items t) -> sdt_ok (fit_sdt t).
Proof.
  intros (T1 & T2 & T3 & T4 & T5) F. split; [exact T1|]. split; [modlt|]. split; [exact T3|]. split; [exact T4|].
  refine (map_Forall2 _ _ _ _ _ _ T5 F). intros i (A & B & C & D & E & H) G. split; [exact A|]. split; [modlt|]. split; [modlt|]. split; [modlt|]. split; [modlt|]. exact (fit_loop_ok _ H G).
Qed.
Lemma range_eit t : eit_typed t -> Forall (fun i => eiti_start i < MJD_END /\ loop_sized (eiti_descs i)) (eit_items t) -> eit_ok (fit_eit t).
Proof.
  intros (T1 & T2 & T3 & T4 & T5 & T6) F. split; [exact T1|]. split; [modlt|]. split; [exact T3|]. split; [exact T4|]. split; [exact T5|].
  refine (map_Forall2 _ _ _ _ _ _ T6 F). intros i (A & B & C & D & E & H) (G1 & G2). split; [exact A|]. split; [exact G1|]. split; [modlt|]. split; [modlt|]. split; [modlt|]. exact (fit_loop_ok _ H G2).
Qed.
Lemma fits_pmt n t : pmt_fits n t -> pmt_fits n (fit_pmt t).
Proof.
  intros [A B]. split; [unfold fit_pmt; cbn [pmt_descs]; rewrite fit_wire_len; exact A|]. refine (map_Forall _ _ _ _ _ B). intros i Hi. unfold pmt_entry in *. cbn [pmti_descs].
  rewrite app_length, layout_length in * by reflexivity. rewrite fit_wire_len. exact Hi.
Qed.
Lemma fits_nit n t : nit_fits n t -> nit_fits n (fit_nit t).
Proof.
  intros [A B]. split; [unfold fit_nit; cbn [nit_descs]; rewrite fit_wire_len; exact A|]. refine (map_Forall _ _ _ _ _ B). intros i Hi. unfold nit_entry in *. cbn [niti_descs].
  rewrite app_length, layout_length in * by reflexivity. rewrite fit_wire_len. exact Hi.
Qed.
Lemma fits_sdt n t : sdt_fits n t -> sdt_fits n (fit_sdt t).
Proof.
  intros B. refine (map_Forall _ _ _ _ _ B). intros i Hi. unfold sdt_entry in *. cbn [sdti_descs]. rewrite app_length, layout_length in * by reflexivity. rewrite fit_wire_len. exact Hi.
Qed.
Lemma fits_eit n t : eit_fits n t -> eit_fits n (fit_eit t).
Proof.
  intros B. refine (map_Forall _ _ _ _ _ B). intros i Hi. unfold eit_entry, fit_event in *. cbn [eiti_descs]. rewrite app_length, layout_length in * by reflexivity. rewrite fit_wire_len. exact Hi.
Qed.
