(** Section reassembly: sequences of packets. *)
From Verif Require Import Prelude Layout Facts Facts2 M_bytes M_ts M_crc M_psi M_drive S_ts S_crc S_psi
  P_bytes P_ts P_crc W_ts P_psi P_mux.

(** [holds p d]: the receiver has collected the payload bytes [d] of one section *)
Definition holds (p : psi) (d : list N) : Prop :=
  ((3 <= length d)%nat -> p_size p = section_length d /\ p_buffer p = firstn (section_length d) d) /\
  ((length d < 3)%nat -> p_size p = 0%nat /\ p_buffer p = d).

Lemma section_length_firstn n d : (3 <= n)%nat -> (3 <= length d)%nat ->
  section_length (firstn n d) = section_length d.
Proof.
  intros Hn Hd. rewrite <- (firstn_skipn n d) at 2. rewrite section_length_app; [reflexivity|].
  rewrite firstn_length. lia.
Qed.

Lemma holds_InvB p d : bytes d -> holds p d -> InvB p.
Proof.
  intros Hb [H1 H2]. destruct (Nat.le_gt_cases 3 (length d)) as [H|H].
  - destruct (H1 H) as [Hs Hf]. pose proof (section_length_ge d). split.
    + rewrite Hf. apply bytes_firstn, Hb.
    + right. rewrite Hf, firstn_length. split; [lia|]. rewrite section_length_firstn by lia. assumption.
  - destruct (H2 H) as [Hs Hf]. split; [rewrite Hf; assumption|]. left. rewrite Hf. auto.
Qed.

Lemma InvB_clear p : InvB (psi_clear p).
Proof. split; [apply bytes_nil|]. left. cbn. auto with arith. Qed.

Definition started (p : psi) (cc : N) (c : list N) : psi :=
  with_cc (trunc_nz (pushed (psi_clear p) c)) cc.

Lemma started_holds p cc c : holds (started p cc c) c /\ p_cc (started p cc c) = cc /\
  p_pid (started p cc c) = p_pid p.
Proof.
  unfold started, trunc_nz, pushed, psi_clear, with_cc, with_buffer. cbn [p_buffer p_size p_pid p_cc app].
  destruct (Nat.ltb_spec (length c) 3) as [H|H].
  - change (negb (0 =? 0)%nat) with false. cbn [andb p_pid p_cc].
    split; [|split; reflexivity]. split; [lia|]. intros _. split; reflexivity.
  - pose proof (section_length_ge c).
    destruct (Nat.eqb_spec (section_length c) 0) as [E|E]; [lia|]. cbn [negb andb].
    destruct (Nat.ltb_spec (section_length c) (length c)); cbn [p_pid p_cc];
      (split; [|split; reflexivity]; split; [|lia]); intros _; cbn [p_size p_buffer].
    + rewrite resize_shrink by lia. split; reflexivity.
    + rewrite firstn_all2 by lia. split; reflexivity.
Qed.

(** a start packet begins a new section *)
Lemma mux_start m p cc sk c : bytes c -> (length sk < 183)%nat ->
  (sk = [] \/ (p_cc p < 255 /\ ((InvB p /\ p_buffer p = []) \/ cc <> (p_cc p + 1) mod 16))) ->
  mux_payload m p true cc (N.of_nat (length sk) :: sk ++ c) = Ok (started p cc c).
Proof.
  intros Hb Hl Hc. unfold mux_payload.
  rewrite Nat2N.id. destruct (Nat.leb_spec 183 (length sk)); [lia|].
  assert (Hp : forall q, (q = psi_clear p) ->
     (p0 <- match p_buffer q with
     | [] => pay <- slice_from (sk ++ c) (length sk) ;; p0 <- psi_push q pay ;; Ok (trunc_nz p0)
     | _ :: _ => psi_push (drain q) (sk ++ c) end ;; Ok (with_cc p0 cc)) = Ok (started p cc c)).
  { intros q ->. cbn [psi_clear p_buffer]. rewrite slice_from_app. cbn [bind].
    destruct (push_eq (psi_clear p) c (or_introl (InvB_clear p)) Hb) as [-> _]. reflexivity. }
  destruct (Nat.eqb_spec (length sk) 0) as [Hz|Hz]; cbn [bind].
  - apply Hp. reflexivity.
  - destruct Hc as [->|[Hcc Hc]]; [cbn in Hz; lia|].
    rewrite cc_breaks_eq by (left; assumption). cbn [bind]. cbv zeta. apply Hp.
    destruct (N.eqb_spec cc ((p_cc p + 1) mod 16)); cbn [negb]; [|reflexivity].
    destruct Hc as [[HI He]|Hc]; [|contradiction].
    destruct HI as [_ [[Hs _]|[HI _]]]; [|rewrite He in HI; cbn in HI; lia].
    destruct p as [b s i c0]; cbn in *. subst. reflexivity.
Qed.

(** a continuation packet in sequence *)
Lemma mux_cont m p d pay : bytes d -> bytes pay -> holds p d -> p_cc p < 16 -> pay <> [] ->
  (3 <= length (d ++ pay))%nat ->
  exists p', mux_payload m p false ((p_cc p + 1) mod 16) pay = Ok p' /\
    holds p' (d ++ pay) /\ p_cc p' = (p_cc p + 1) mod 16 /\ p_pid p' = p_pid p.
Proof.
  intros Hbd Hbp Hh Hcc Hne Hl. unfold mux_payload.
  destruct pay as [|b t]; [contradiction|]. set (pay := b :: t) in *. clearbody pay.
  rewrite cc_breaks_eq by (left; lia). rewrite N.eqb_refl. cbn [negb bind].
  pose proof (holds_InvB _ _ Hbd Hh) as HI.
  destruct (push_eq p pay (or_introl HI) Hbp) as [-> _]. cbn [bind].
  eexists. split; [reflexivity|].
  assert (Hp : p_size (pushed p pay) = section_length (d ++ pay) /\
    firstn (section_length (d ++ pay)) (p_buffer (pushed p pay)) = firstn (section_length (d ++ pay)) (d ++ pay)).
  { unfold pushed. cbn [p_size p_buffer]. destruct Hh as [H1 H2].
    destruct (Nat.le_gt_cases 3 (length d)) as [H|H].
    - destruct (H1 H) as [Hs Hf]. pose proof (section_length_ge d). rewrite Hf.
      rewrite (section_length_app d) by assumption.
      destruct (Nat.ltb_spec (length (firstn (section_length d) d ++ pay)) 3) as [Hx|Hx];
        [rewrite app_length, firstn_length in Hx; lia|].
      rewrite section_length_app by (rewrite firstn_length; lia).
      rewrite section_length_firstn by lia. split; [reflexivity|].
      destruct (Nat.le_gt_cases (section_length d) (length d)).
      + rewrite !firstn_app, firstn_firstn, Nat.min_id, firstn_length, Nat.min_l by assumption.
        replace (section_length d - length d)%nat with 0%nat by lia. rewrite Nat.sub_diag. reflexivity.
      + rewrite (firstn_all2 d) by lia. reflexivity.
    - destruct (H2 H) as [Hs Hf]. rewrite Hf.
      destruct (Nat.ltb_spec (length (d ++ pay)) 3); [lia|]. split; reflexivity. }
  assert (Hlb : (length (p_buffer (pushed p pay)) <= section_length (d ++ pay))%nat ->
     p_buffer (pushed p pay) = firstn (section_length (d ++ pay)) (d ++ pay)).
  { intros Hle. destruct Hp as [_ Hp]. rewrite firstn_all2 in Hp by assumption. assumption. }
  destruct Hp as [Hps Hpf].
  unfold trunc. rewrite Hps.
  destruct (Nat.ltb_spec (section_length (d ++ pay)) (length (p_buffer (pushed p pay)))).
  - unfold with_cc, with_buffer. cbn [p_size p_cc p_pid p_buffer pushed]. split; [|split; reflexivity].
    split; [|lia]. intros _. cbn [p_size p_buffer].
    rewrite resize_shrink by (cbn [pushed p_buffer] in *; lia). split; [assumption|].
    exact Hpf.
  - unfold with_cc. cbn [p_cc p_pid p_buffer]. split; [|split; reflexivity].
    split; [|lia]. intros _. cbn [p_size p_buffer]. split; [assumption|]. apply Hlb; assumption.
Qed.

Lemma mux_all_app m p l1 l2 : mux_all m p (l1 ++ l2) = bind (mux_all m p l1) (fun q => mux_all m q l2).
Proof.
  revert p; induction l1 as [|ts l1 IH]; intros p; [reflexivity|].
  cbn [app mux_all]. destruct (psi_mux m p ts); cbn [bind]; [apply IH|reflexivity|reflexivity].
Qed.

Lemma mux_all_nopl m p ks : Forall (fun k => packet_ok k /\ k_haspl k = false) ks ->
  mux_all m p (map encode ks) = Ok p.
Proof.
  induction 1 as [|k ks [Hk Hp] _ IH]; [reflexivity|].
  cbn [map mux_all]. rewrite mux_encode by assumption. rewrite Hp. exact IH.
Qed.

Lemma last_cons {A} (x : A) l d : last (x :: l) d = last l x.
Proof. revert x d; induction l as [|y l IH]; intros x d; [reflexivity|]. change (last (x :: y :: l) d) with (last (y :: l) d). rewrite !IH. reflexivity. Qed.

Lemma mux_conts m ks : forall p d, bytes d -> holds p d -> p_cc p < 16 -> continues (p_cc p) ks ->
  match filter k_haspl ks with [] => True | k :: _ => (3 <= length d + length (k_payload k))%nat end ->
  exists p', mux_all m p (map encode ks) = Ok p' /\ holds p' (d ++ carried ks) /\
    p_cc p' = last_cc (p_cc p) ks /\ p_pid p' = p_pid p /\ bytes (d ++ carried ks) /\ p_cc p' < 16.
Proof.
  induction ks as [|k ks IH]; intros p d Hbd Hh Hcc Hc H3.
  - exists p. cbn. rewrite app_nil_r. auto 10.
  - cbn [continues] in Hc. destruct Hc as [Hk Hc]. cbn [map mux_all]. rewrite mux_encode by assumption.
    unfold carried, last_cc. cbn [filter]. cbn [filter] in H3.
    destruct (k_haspl k).
    + destruct Hc as (Hpu & Hne & Hkc & Hc). rewrite Hpu, Hkc.
      destruct Hk as (_ & _ & Hbp & _).
      destruct (mux_cont m p d (k_payload k) Hbd Hbp Hh Hcc Hne) as (p1 & -> & Hh1 & Hc1 & Hp1);
        [rewrite app_length; assumption|]. cbn [bind].
      assert (Hb1 : bytes (d ++ k_payload k)) by (apply bytes_app; auto).
      rewrite Hkc, <- Hc1 in Hc.
      assert (Hcc1 : p_cc p1 < 16) by (rewrite Hc1; apply mod_lt_b; lia).
      destruct (IH p1 _ Hb1 Hh1 Hcc1 Hc) as (p2 & H2 & Hh2 & Hc2 & Hp2 & Hb2 & Hl2).
      { destruct (filter k_haspl ks); [exact I|]. rewrite app_length. lia. }
      exists p2. cbn [map concat]. rewrite last_cons, Hkc. rewrite app_assoc.
      fold (carried ks). rewrite Hp2, Hp1, <- Hc1. auto 10.
    + cbn [bind]. exact (IH p d Hbd Hh Hcc Hc H3).
Qed.

(** ** any legal packetisation *)
Lemma mux_legal m p pre k0 ks sk c1 :
  Forall (fun k => packet_ok k /\ k_haspl k = false) pre ->
  packet_ok k0 -> k_haspl k0 = true -> k_pusi k0 = true ->
  k_payload k0 = N.of_nat (length sk) :: sk ++ c1 -> (length sk < 183)%nat ->
  (sk = [] \/ (p_cc p < 255 /\ ((InvB p /\ p_buffer p = []) \/ k_cc k0 <> (p_cc p + 1) mod 16))) ->
  continues (k_cc k0) ks ->
  match filter k_haspl ks with [] => True | k :: _ => (3 <= length c1 + length (k_payload k))%nat end ->
  exists p', mux_all m p (map encode (pre ++ k0 :: ks)) = Ok p' /\ holds p' (c1 ++ carried ks) /\
    p_cc p' = last_cc (k_cc k0) ks /\ p_pid p' = p_pid p /\ bytes (c1 ++ carried ks).
Proof.
  intros Hpre Hk Hpl Hpu Hpay Hl Hst Hc H3.
  rewrite map_app, mux_all_app, mux_all_nopl by assumption. cbn [bind map mux_all].
  rewrite mux_encode by assumption. rewrite Hpl, Hpu, Hpay.
  destruct Hk as (_ & Hcc & Hb & _). rewrite Hpay in Hb. apply bytes_cons in Hb as [_ Hb].
  apply bytes_app in Hb as [_ Hb].
  rewrite mux_start by assumption. cbn [bind].
  destruct (started_holds p (k_cc k0) c1) as (Hh & Hsc & Hsp).
  destruct (mux_conts m ks (started p (k_cc k0) c1) c1 Hb Hh) as (p' & H & Hh' & Hc' & Hp' & Hb' & _).
  - rewrite Hsc. assumption.
  - rewrite Hsc. assumption.
  - assumption.
  - exists p'. rewrite Hsc in Hc'. rewrite Hsp in Hp'. auto.
Qed.
