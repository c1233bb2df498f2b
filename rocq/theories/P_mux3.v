(** Section reassembly: loss, sections starting mid-packet, aborts, memory, invariant. *)
From Verif Require Import Prelude Layout Facts Facts2 M_bytes M_ts M_crc M_psi M_drive S_ts S_crc S_psi
  P_bytes P_ts P_crc W_ts P_psi P_mux P_mux2 P_sect.

(** ** invariant *)
Lemma Inv_InvB p : Inv p -> InvB p.
Proof. intros (H1 & H2 & H3). split; assumption. Qed.
Lemma InvB_Inv p : InvB p -> p_cc p < 16 -> Inv p.
Proof. intros (H1 & H3) H2. repeat split; assumption. Qed.

Lemma InvB_with_cc p c : InvB p -> InvB (with_cc p c).
Proof. exact (fun H => H). Qed.
Lemma InvB_trunc p : InvB p -> InvB (trunc p).
Proof.
  intros [Hb H]. unfold trunc. destruct (Nat.ltb_spec (p_size p) (length (p_buffer p))); [|split; assumption].
  rewrite resize_shrink by lia. split; cbn [with_buffer p_buffer p_size]; [apply bytes_firstn, Hb|].
  destruct H as [[H1 H2]|[H1 H2]].
  - left. rewrite H1. cbn. auto with arith.
  - right. pose proof (section_length_ge (p_buffer p)). rewrite firstn_length. split; [lia|].
    rewrite section_length_firstn by lia. assumption.
Qed.
Lemma InvB_trunc_nz p : InvB p -> InvB (trunc_nz p).
Proof.
  intros H. unfold trunc_nz. destruct (Nat.eqb_spec (p_size p) 0); cbn [negb andb]; [assumption|].
  exact (InvB_trunc p H).
Qed.
Lemma drain_ok p : InvB p -> InvB (drain p) \/ p_size (drain p) = 0%nat /\ bytes (p_buffer (drain p)).
Proof.
  intros [Hb H]. unfold drain.
  destruct (negb (p_size p =? 0)%nat && (p_size p <? length (p_buffer p))%nat).
  - right. split; [reflexivity|]. apply bytes_skipn, Hb.
  - left. split; assumption.
Qed.

Lemma mux_payload_inv m p pusi cc pay p' : InvB p -> bytes pay ->
  mux_payload m p pusi cc pay = Ok p' -> InvB p' /\ (p_cc p' = cc \/ p_cc p' = p_cc p).
Proof.
  intros HI Hb. unfold mux_payload. destruct pay as [|b t]; [intros E; injection E as <-; split; [apply InvB_clear|auto]|].
  destruct pusi.
  - destruct (183 <=? N.to_nat b)%nat; [intros E; injection E as <-; split; [apply InvB_clear|auto]|].
    intros E. apply bind_inv in E as (r & _ & E). cbv zeta in E.
    set (q := if r then psi_clear p else p) in E.
    assert (HIq : InvB q) by (unfold q; destruct r; [apply InvB_clear|assumption]).
    clearbody q. apply bytes_cons in Hb as [_ Hb].
    apply bind_inv in E as (p1 & E1 & E). injection E as <-. split; [|left; reflexivity].
    apply InvB_with_cc. destruct (p_buffer q) as [|x y].
    + apply bind_inv in E1 as (pay & Es & E1). unfold slice_from in Es.
      destruct (N.to_nat b <=? length t)%nat; [|discriminate]. injection Es as <-.
      destruct (push_eq q (skipn (N.to_nat b) t) (or_introl HIq) (bytes_skipn _ _ Hb)) as [Ep Hp].
      rewrite Ep in E1. cbn [bind] in E1. injection E1 as <-. apply InvB_trunc_nz, Hp.
    + destruct (push_eq (drain q) t (drain_ok q HIq) Hb) as [Ep Hp].
      rewrite Ep in E1. injection E1 as <-. exact Hp.
  - intros E. apply bind_inv in E as (r & _ & E). destruct r; [injection E as <-; split; [apply InvB_clear|auto]|].
    destruct (push_eq p (b :: t) (or_introl HI) Hb) as [Ep Hp]. rewrite Ep in E. cbn [bind] in E.
    injection E as <-. split; [|left; reflexivity]. apply InvB_with_cc, InvB_trunc, Hp.
Qed.

Lemma mux_inv m p ts p' : length ts = 188%nat -> bytes ts -> Inv p -> psi_mux m p ts = Ok p' -> Inv p'.
Proof.
  intros Hl Hb HI. rewrite psi_mux_eq by assumption. pose proof HI as (_ & Hc & _).
  destruct (flag ts 27); [|intros E; injection E as <-; assumption].
  intros E. apply bind_inv in E as (off & _ & E).
  destruct (188 <=? N.to_nat off)%nat.
  - injection E as <-. apply InvB_Inv; [apply InvB_clear|exact Hc].
  - destruct (mux_payload_inv _ _ _ _ _ _ (Inv_InvB _ HI) (bytes_skipn _ _ Hb) E) as [HI' Hc'].
    apply InvB_Inv; [assumption|]. pose proof (field_lt ts 28 4) as Hf. change (2 ^ N.of_nat 4) with 16 in Hf.
    destruct Hc' as [->| ->]; assumption.
Qed.

Lemma Inv_default : Inv psi_default.
Proof. split; [apply bytes_nil|]. split; [reflexivity|]. left. cbn. auto with arith. Qed.

Lemma mux_all_inv m l : forall p p', Forall (fun ts => length ts = 188%nat /\ bytes ts) l -> Inv p ->
  mux_all m p l = Ok p' -> Inv p'.
Proof.
  induction l as [|ts l IH]; intros p p' Hl HI E; [injection E as <-; assumption|].
  inversion Hl as [|? ? [H1 H2] Hl']; subst. cbn [mux_all] in E. apply bind_inv in E as (q & Eq & E).
  apply (IH q); [assumption|exact (mux_inv _ _ _ _ H1 H2 HI Eq)|assumption].
Qed.

(** ** memory *)
Definition Bnd (p : psi) : Prop := InvB p /\ (p_size p = 0 \/ length (p_buffer p) <= p_size p)%nat.

Lemma Bnd_le p : Bnd p -> (length (p_buffer p) <= N.to_nat 4098)%nat.
Proof.
  intros [[_ HI] H]. pose proof (section_length_le (p_buffer p)).
  pose proof (section_length_ge (p_buffer p)). lia.
Qed.

Lemma trunc_len p : (length (p_buffer (trunc p)) <= p_size p)%nat.
Proof.
  unfold trunc. destruct (Nat.ltb_spec (p_size p) (length (p_buffer p))); [|lia].
  cbn [with_buffer p_buffer]. rewrite resize_length. lia.
Qed.
Lemma trunc_size p : p_size (trunc p) = p_size p.
Proof. unfold trunc. destruct (p_size p <? length (p_buffer p))%nat; reflexivity. Qed.

Lemma mux_payload_bnd m p pusi cc pay p' : Bnd p -> bytes pay ->
  (pusi = true -> hd 0 pay = 0) -> mux_payload m p pusi cc pay = Ok p' -> Bnd p'.
Proof.
  intros HB Hb Hp E. pose proof HB as [HI HL].
  destruct (mux_payload_inv _ _ _ _ _ _ HI Hb E) as [HI' _]. split; [exact HI'|].
  revert E. unfold mux_payload. destruct pay as [|b t]; [intros E; injection E as <-; left; reflexivity|].
  destruct pusi.
  - specialize (Hp eq_refl). cbn in Hp. subst b.
    change (183 <=? N.to_nat 0)%nat with false. change (N.to_nat 0 =? 0)%nat with true. cbn [bind psi_clear p_buffer].
    unfold slice_from. change (N.to_nat 0) with 0%nat. cbn [Nat.leb bind skipn].
    apply bytes_cons in Hb as [_ Hb].
    destruct (push_eq (psi_clear p) t (or_introl (InvB_clear p)) Hb) as [Ep _].
    fold (psi_clear p). rewrite Ep. cbn [bind]. intros E. injection E as <-.
    destruct (started_holds p cc t) as ((H1 & H2) & _ & _). unfold started in *.
    destruct (Nat.le_gt_cases 3 (length t)) as [H|H].
    + destruct (H1 H) as [Hs Hf]. right. rewrite Hs, Hf, firstn_length. lia.
    + destruct (H2 H) as [Hs Hf]. left. exact Hs.
  - intros E. apply bind_inv in E as (r & _ & E). destruct r; [injection E as <-; left; reflexivity|].
    destruct (push_eq p (b :: t) (or_introl HI) Hb) as [Ep _]. rewrite Ep in E. cbn [bind] in E.
    injection E as <-. right. cbn [with_cc p_buffer p_size]. rewrite trunc_size. apply trunc_len.
Qed.

(** a start packet whose pointer field is not zero *)
Definition nz_pointer (ts : list N) : Prop :=
  flag ts 27 = true /\ flag ts 9 = true /\ nth (N.to_nat (payload_at ts)) ts 0 <> 0.

Lemma payload_offset_at m ts off : (5 <= length ts)%nat -> bytes ts ->
  get_payload_offset m ts = Ok off -> off = payload_at ts.
Proof.
  intros Hl Hb. rewrite payload_offset_spec by assumption. unfold payload_at.
  destruct (flag ts 26); [|intros E; injection E as <-; reflexivity].
  pose proof (field_lt ts 32 8) as Hf. change (2 ^ N.of_nat 8) with 256 in Hf.
  destruct (N.leb_spec (field ts 32 8) 250).
  - intros E. injection E as <-. rewrite N.mod_small by lia. reflexivity.
  - destruct m; [discriminate|]. intros E. injection E as <-. dlia.
Qed.

Lemma hd_skipn (l : list N) n : hd 0 (skipn n l) = nth n l 0.
Proof. revert l; induction n as [|n IH]; intros [|x l]; try reflexivity. cbn. apply IH. Qed.

Lemma mux_bnd m p ts p' : length ts = 188%nat -> bytes ts -> ~ nz_pointer ts -> Bnd p ->
  psi_mux m p ts = Ok p' -> Bnd p'.
Proof.
  intros Hl Hb Hn HB. rewrite psi_mux_eq by assumption.
  destruct (flag ts 27) eqn:E27; [|intros E; injection E as <-; assumption].
  intros E. apply bind_inv in E as (off & Eo & E). apply payload_offset_at in Eo; [|lia|assumption].
  destruct (188 <=? N.to_nat off)%nat.
  - injection E as <-. split; [apply InvB_clear|]. left. reflexivity.
  - apply (mux_payload_bnd _ _ _ _ _ _ HB (bytes_skipn _ _ Hb)) in E; [exact E|].
    intros Hp. rewrite hd_skipn, Eo. destruct (N.eq_dec (nth (N.to_nat (payload_at ts)) ts 0) 0) as [Hz|Hz]; [assumption|].
    exfalso. apply Hn. split; [assumption|]. split; assumption.
Qed.

Lemma mux_all_bnd m l : forall p p',
  Forall (fun ts => length ts = 188%nat /\ bytes ts /\ ~ nz_pointer ts) l -> Bnd p ->
  mux_all m p l = Ok p' -> Bnd p'.
Proof.
  induction l as [|ts l IH]; intros p p' Hl HI E; [injection E as <-; assumption|].
  inversion Hl as [|? ? (H1 & H2 & H3) Hl']; subst. cbn [mux_all] in E. apply bind_inv in E as (q & Eq & E).
  apply (IH q); [assumption|exact (mux_bnd _ _ _ _ H1 H2 H3 HI Eq)|assumption].
Qed.

(** *** growth without bound *)
Definition grow_packet (cc : N) : packet :=
  mkPacket 0x47 0 true 0 256 0 true cc None (1 :: repeat 0 183).
Fixpoint grow_packets (n : nat) (cc : N) : list (list N) :=
  match n with O => [] | S n' => encode (grow_packet cc) :: grow_packets n' ((cc + 1) mod 16) end.

Lemma grow_ok cc : cc < 16 -> packet_ok (grow_packet cc).
Proof.
  intros H. split; [reflexivity|]. split; [exact H|]. split; [|apply bytes_nil].
  apply bytesb_iff. vm_compute. reflexivity.
Qed.

Lemma repeat_section_length n : (3 <= n)%nat -> section_length (repeat 0 n) = 3%nat.
Proof. intros H. replace n with (3 + (n - 3))%nat by lia. rewrite repeat_app, section_length_app by (cbn; lia). reflexivity. Qed.

Lemma grow_step m L pid cc : (3 <= L)%nat -> cc < 16 ->
  exists L', (L < L')%nat /\ 
    psi_mux m (mkPsi (repeat 0 L) 3 pid cc) (encode (grow_packet ((cc + 1) mod 16))) =
    Ok (mkPsi (repeat 0 L') 3 pid ((cc + 1) mod 16)).
Proof.
  intros HL Hcc. rewrite mux_encode by (apply grow_ok, mod_lt_b; lia).
  cbn [grow_packet k_haspl k_pusi k_cc k_payload].
  set (p := mkPsi (repeat 0 L) 3 pid cc).
  unfold mux_payload. change (183 <=? N.to_nat 1)%nat with false. change (N.to_nat 1 =? 0)%nat with false. cbn match.
  rewrite cc_breaks_eq by (left; cbn; lia). cbn [p p_cc]. rewrite N.eqb_refl. cbn [negb bind]. cbv zeta.
  assert (Hd : exists L2, drain p = mkPsi (repeat 0 L2) (if (3 <? L)%nat then 0 else 3) pid cc /\ (L < L2 + 183)%nat /\ (L = 3 -> L2 = 3)%nat).
  { unfold drain, p. cbn [p_size p_buffer p_pid p_cc]. change (negb (3 =? 0)%nat) with true. rewrite repeat_length. cbn [andb].
    destruct (Nat.ltb_spec 3 L).
    - exists (L - 3)%nat. split; [|lia]. f_equal. replace L with (3 + (L - 3))%nat at 1 by lia.
      rewrite repeat_app. cbn [repeat app skipn]. reflexivity.
    - exists L. split; [reflexivity|lia]. }
  destruct Hd as (L2 & Hd & HL2 & HL3).
  unfold p at 1. cbn [p_buffer]. destruct (repeat 0 L) as [|x y] eqn:El; [destruct L; [lia|discriminate]|]. clear El.
  fold p. rewrite Hd.
  assert (HI : InvB (mkPsi (repeat 0 L2) (if (3 <? L)%nat then 0 else 3) pid cc) \/
     p_size (mkPsi (repeat 0 L2) (if (3 <? L)%nat then 0 else 3) pid cc) = 0%nat /\ bytes (p_buffer (mkPsi (repeat 0 L2) (if (3 <? L)%nat then 0 else 3) pid cc))).
  { destruct (Nat.ltb_spec 3 L).
    - right. split; [reflexivity|]. apply bytes_repeat; lia.
    - left. rewrite HL3 by lia. split; [apply bytes_repeat; lia|]. right. split; [cbn; lia|reflexivity]. }
  destruct (push_eq _ (repeat 0 183) HI ltac:(apply bytes_repeat; lia)) as [-> _]. cbn [bind].
  exists (L2 + 183)%nat. split; [assumption|]. unfold pushed, with_cc. cbn [p_buffer p_pid p_cc p_size].
  rewrite <- repeat_app, repeat_length. destruct (Nat.ltb_spec (L2 + 183) 3); [lia|].
  rewrite repeat_section_length by lia. reflexivity.
Qed.

Lemma grow_run m pid : forall n L cc, (3 <= L)%nat -> cc < 16 ->
  exists p', mux_all m (mkPsi (repeat 0 L) 3 pid cc) (grow_packets n ((cc + 1) mod 16)) = Ok p' /\
    (L + n <= length (p_buffer p'))%nat.
Proof.
  induction n as [|n IH]; intros L cc HL Hcc.
  - eexists. split; [reflexivity|]. cbn [p_buffer]. rewrite repeat_length. lia.
  - cbn [grow_packets mux_all]. destruct (grow_step m L pid cc HL Hcc) as (L' & HL' & ->). cbn [bind].
    destruct (IH L' ((cc + 1) mod 16)) as (p' & H & Hlen); [lia|apply mod_lt_b; lia|].
    exists p'. split; [exact H|lia].
Qed.

Lemma grow_unbounded m n : exists l p', Forall (fun ts => length ts = 188%nat /\ bytes ts) l /\
  mux_all m psi_default l = Ok p' /\ (n <= length (p_buffer p'))%nat.
Proof.
  assert (Hall : forall n cc, cc < 16 -> Forall (fun ts => length ts = 188%nat /\ bytes ts) (grow_packets n cc)).
  { clear n. induction n as [|n IH]; intros cc Hcc; [constructor|]. constructor; [|apply IH, mod_lt_b; lia].
    split; [reflexivity|]. unfold encode. apply bytes_app. split; [apply layout_bytes|].
    apply bytesb_iff. vm_compute. reflexivity. }
  destruct (grow_run m 0 n 3 1 ltac:(lia) ltac:(lia)) as (p' & H & Hlen).
  exists (grow_packets (S n) 1), p'. split; [apply Hall; lia|]. split; [|lia].
  cbn [grow_packets mux_all].
  replace (psi_mux m psi_default (encode (grow_packet 1))) with (Ok (mkPsi (repeat 0 3) 3 0 1)).
  - cbn [bind]. exact H.
  - destruct m; vm_compute; reflexivity.
Qed.

(** ** aborts *)
Lemma push_total p t : exists p', psi_push p t = Ok p'.
Proof.
  unfold psi_push. destruct (Nat.eqb_spec (p_size p) 0); cbn [andb]; [|eexists; reflexivity].
  destruct (Nat.leb_spec 3 (length (p_buffer p ++ t))); [|eexists; reflexivity].
  destruct (p_buffer p ++ t) as [|a [|b [|c l]]]; cbn [length] in *; try lia.
  eexists. reflexivity.
Qed.

Lemma cc_breaks_cases m p cc : p_cc p < 256 ->
  cc_breaks m p cc = if match m with Debug => p_cc p =? 255 | Release => false end then Panic
                     else Ok (negb (cc =? (p_cc p + 1) mod 16)).
Proof.
  intros H. destruct m.
  - destruct (N.eqb_spec (p_cc p) 255); [apply cc_breaks_panic; assumption|]. apply cc_breaks_eq. left. lia.
  - apply cc_breaks_eq. right. auto.
Qed.

Definition debug_wrap (m : mode) (p : psi) : Prop := m = Debug /\ p_cc p = 255.

Lemma mux_payload_total m p pusi cc pay : p_cc p < 256 ->
  (exists p', mux_payload m p pusi cc pay = Ok p') \/
  mux_payload m p pusi cc pay = Panic /\
    pay <> [] /\ if pusi then 0 < hd 0 pay < 183 /\
      (debug_wrap m p \/
       ((p_buffer p = [] \/ cc <> (p_cc p + 1) mod 16) /\ N.of_nat (length (tl pay)) < hd 0 pay))
    else debug_wrap m p.
Proof.
  intros Hc. unfold mux_payload. destruct pay as [|b t]; [left; eexists; reflexivity|].
  destruct pusi; cbn [hd tl].
  - destruct (Nat.leb_spec 183 (N.to_nat b)); [left; eexists; reflexivity|].
    assert (F : forall q, exists p', psi_push (drain q) t = Ok p') by (intros; apply push_total).
    destruct (Nat.eqb_spec (N.to_nat b) 0) as [Hz|Hz].
    + left. cbn [bind]. cbn [psi_clear p_buffer]. unfold slice_from. rewrite Hz. cbn [Nat.leb bind].
      fold (psi_clear p). destruct (push_total (psi_clear p) (skipn 0 t)) as [p' ->]. eexists. reflexivity.
    + rewrite cc_breaks_cases by assumption.
      destruct (match m with Debug => p_cc p =? 255 | Release => false end) eqn:Ew.
      * right. split; [reflexivity|]. split; [discriminate|]. split; [lia|]. left.
        destruct m; [|discriminate]. apply N.eqb_eq in Ew. split; auto.
      * cbn [bind]. cbv zeta.
        destruct (N.eqb_spec cc ((p_cc p + 1) mod 16)) as [Ec|Ec]; cbn [negb].
        -- destruct (p_buffer p) as [|x y] eqn:Eb.
           ++ unfold slice_from. destruct (Nat.leb_spec (N.to_nat b) (length t)); cbn [bind].
              ** left. destruct (push_total p (skipn (N.to_nat b) t)) as [p' ->]. eexists; reflexivity.
              ** right. split; [reflexivity|]. split; [discriminate|]. split; [lia|]. right. split; [auto|lia].
           ++ left. destruct (F p) as [p' ->]. eexists; reflexivity.
        -- cbn [psi_clear p_buffer]. fold (psi_clear p). unfold slice_from.
           destruct (Nat.leb_spec (N.to_nat b) (length t)); cbn [bind].
           ++ left. destruct (push_total (psi_clear p) (skipn (N.to_nat b) t)) as [p' ->]. eexists; reflexivity.
           ++ right. split; [reflexivity|]. split; [discriminate|]. split; [lia|]. right. split; [auto|lia].
  - rewrite cc_breaks_cases by assumption.
    destruct (match m with Debug => p_cc p =? 255 | Release => false end) eqn:Ew.
    + right. split; [reflexivity|]. split; [discriminate|]. destruct m; [|discriminate]. apply N.eqb_eq in Ew. split; auto.
    + cbn [bind]. destruct (negb _); [left; eexists; reflexivity|].
      destruct (push_total p (b :: t)) as [p' ->]. left; eexists; reflexivity.
Qed.

Lemma mux_payload_panics m p (pusi : bool) cc pay : p_cc p < 256 -> pay <> [] ->
  (if pusi then 0 < hd 0 pay < 183 /\
      (debug_wrap m p \/
       ((p_buffer p = [] \/ cc <> (p_cc p + 1) mod 16) /\ N.of_nat (length (tl pay)) < hd 0 pay))
   else debug_wrap m p) -> mux_payload m p pusi cc pay = Panic.
Proof.
  intros Hc Hne H. unfold mux_payload. destruct pay as [|b t]; [contradiction|]. cbn [hd tl] in H.
  rewrite cc_breaks_cases by assumption.
  destruct pusi.
  - destruct H as [Hb H]. destruct (Nat.leb_spec 183 (N.to_nat b)); [lia|].
    destruct (Nat.eqb_spec (N.to_nat b) 0); [lia|].
    destruct (match m with Debug => p_cc p =? 255 | Release => false end) eqn:Ew; [reflexivity|].
    destruct H as [[-> Hw]|[He Hl]]; [rewrite Hw in Ew; discriminate|].
    cbn [bind]. cbv zeta.
    assert (Hb2 : p_buffer (if negb (cc =? (p_cc p + 1) mod 16) then psi_clear p else p) = []).
    { destruct (N.eqb_spec cc ((p_cc p + 1) mod 16)); cbn [negb]; [|reflexivity]. destruct He; [assumption|contradiction]. }
    rewrite Hb2. unfold slice_from. destruct (Nat.leb_spec (N.to_nat b) (length t)); [lia|]. reflexivity.
  - destruct H as [-> Hw]. rewrite Hw. reflexivity.
Qed.

(** when a packet makes mux abort *)
Definition mux_aborts (m : mode) (p : psi) (ts : list N) : Prop :=
  let off := payload_at ts in
  let pointer := nth (N.to_nat off) ts 0 in
  flag ts 27 = true /\
  ((m = Debug /\ flag ts 26 = true /\ 250 < field ts 32 8) \/
   (off < 188 /\
    if flag ts 9
    then 0 < pointer < 183 /\
         (debug_wrap m p \/
          ((p_buffer p = [] \/ field ts 28 4 <> (p_cc p + 1) mod 16) /\ 188 < off + 1 + pointer))
    else debug_wrap m p)).

Lemma mux_panic_iff m p ts : length ts = 188%nat -> bytes ts -> p_cc p < 256 ->
  (mux_aborts m p ts -> psi_mux m p ts = Panic) /\
  (~ mux_aborts m p ts -> exists p', psi_mux m p ts = Ok p').
Proof.
  intros Hl Hb Hc. rewrite psi_mux_eq by assumption. unfold mux_aborts.
  destruct (flag ts 27); [|split; [intros [? _]; discriminate|intros _; eexists; reflexivity]].
  assert (Ho : get_payload_offset m ts = Panic /\ (m = Debug /\ flag ts 26 = true /\ 250 < field ts 32 8) \/
     get_payload_offset m ts = Ok (payload_at ts) /\ ~ (m = Debug /\ flag ts 26 = true /\ 250 < field ts 32 8)).
  { rewrite payload_offset_spec by (assumption || lia). unfold payload_at.
    pose proof (field_lt ts 32 8) as Hf. change (2 ^ N.of_nat 8) with 256 in Hf.
    destruct (flag ts 26).
    - destruct (N.leb_spec (field ts 32 8) 250).
      + right. rewrite N.mod_small by lia. split; [reflexivity|]. lia.
      + destruct m; [left; auto|right]. split; [f_equal; dlia|]. intros [? _]; discriminate.
    - right. split; [reflexivity|]. intros (_ & ? & _); discriminate. }
  destruct Ho as [[-> Hd]|[-> Hd]]; cbn [bind].
  - split; [reflexivity|]. intros H. exfalso. apply H. auto.
  - set (off := payload_at ts) in *. set (o := N.to_nat off).
    destruct (Nat.leb_spec 188 o) as [Hx|Hx].
    + split; [intros [_ [H|[H _]]]; [contradiction|lia]|]. intros _; eexists; reflexivity.
    + assert (Hne : skipn o ts <> []) by (apply skipn_ne; lia).
      assert (Hhd : hd 0 (skipn o ts) = nth o ts 0) by apply hd_skipn.
      assert (Htl : length (tl (skipn o ts)) = (187 - o)%nat).
      { pose proof (skipn_length o ts). destruct (skipn o ts); [congruence|]. cbn [length tl] in *. lia. }
      split.
      * intros [_ [H|[Hoff H]]]; [contradiction|]. apply mux_payload_panics; [assumption|assumption|].
        rewrite Hhd, Htl. destruct (flag ts 9); [|assumption].
        destruct H as [Hp [H|[H1 H2]]]; (split; [assumption|]); [auto|]. right. split; [assumption|]. lia.
      * intros H. destruct (mux_payload_total m p (flag ts 9) (field ts 28 4) (skipn o ts) Hc) as [Hok|(_ & _ & Hp)];
          [assumption|]. exfalso. apply H. split; [reflexivity|]. right. split; [lia|].
        rewrite Hhd, Htl in Hp. destruct (flag ts 9); [|assumption].
        destruct Hp as [Hp [H1|[H1 H2]]]; (split; [assumption|]); [auto|]. right. split; [assumption|]. lia.
Qed.

(** ** loss *)
Lemma mux_break m p k : packet_ok k -> k_haspl k = true -> k_pusi k = false -> p_cc p < 16 ->
  k_cc k <> (p_cc p + 1) mod 16 -> psi_mux m p (encode k) = Ok (psi_clear p).
Proof.
  intros Hk Hpl Hpu Hc Hne. rewrite mux_encode by assumption. rewrite Hpl, Hpu.
  unfold mux_payload. destruct (k_payload k); [reflexivity|].
  rewrite cc_breaks_eq by (left; lia). destruct (N.eqb_spec (k_cc k) ((p_cc p + 1) mod 16)); [contradiction|]. reflexivity.
Qed.

Lemma mux_breaks m ks : forall p, p_cc p < 16 ->
  Forall (fun k => packet_ok k /\ k_haspl k = true /\ k_pusi k = false /\ k_cc k <> (p_cc p + 1) mod 16) ks ->
  ks <> [] -> mux_all m p (map encode ks) = Ok (psi_clear p).
Proof.
  induction ks as [|k ks IH]; intros p Hc H Hne; [contradiction|].
  inversion H as [|? ? (H1 & H2 & H3 & H4) H']; subst. cbn [map mux_all].
  rewrite mux_break by assumption. cbn [bind]. destruct ks as [|k2 ks]; [reflexivity|].
  rewrite (IH (psi_clear p)); [destruct p; reflexivity|exact Hc|exact H'|discriminate].
Qed.

Lemma number_k_skipn pid : forall n ps cc, (1 <= n)%nat -> cc < 16 ->
  skipn n (number_k pid cc true ps) = number_k pid ((cc + N.of_nat n) mod 16) false (skipn n ps).
Proof.
  assert (G : forall n ps cc, cc < 16 -> skipn n (number_k pid cc false ps) = number_k pid ((cc + N.of_nat n) mod 16) false (skipn n ps)).
  { induction n as [|n IH]; intros ps cc Hc.
    - cbn [skipn]. rewrite N.add_0_r, N.mod_small by assumption. reflexivity.
    - destruct ps as [|c ps]; [reflexivity|]. cbn [number_k skipn]. rewrite IH by (apply mod_lt_b; lia).
      rewrite N.add_mod_idemp_l by lia. do 2 f_equal. lia. }
  intros n ps cc Hn Hc. destruct n as [|n]; [lia|]. destruct ps as [|c ps]; [reflexivity|]. cbn [number_k skipn].
  rewrite G by (apply mod_lt_b; lia). rewrite N.add_mod_idemp_l by lia. do 2 f_equal. lia.
Qed.

Lemma number_k_in pid : forall ps cc k, cc < 16 -> Forall (fun c => bytes c /\ length c = 184%nat) ps ->
  In k (number_k pid cc false ps) ->
  packet_ok k /\ k_haspl k = true /\ k_pusi k = false /\
  exists j, (j < length ps)%nat /\ k_cc k = (cc + N.of_nat j) mod 16.
Proof.
  induction ps as [|c ps IH]; intros cc k Hc Hps Hin; [contradiction|].
  inversion Hps as [|? ? [Hb Hl] Hps']; subst. destruct Hin as [<-|Hin].
  - repeat split; try (apply number_k_ok; assumption). exists 0%nat. cbn [length k_cc]. split; [lia|].
    rewrite N.add_0_r, N.mod_small by assumption. reflexivity.
  - destruct (IH _ _ (mod_lt_b (cc + 1) 16 ltac:(lia)) Hps' Hin) as (H1 & H2 & H3 & j & Hj & Ej).
    repeat split; try assumption; try apply H1. exists (S j). cbn [length]. split; [lia|]. rewrite Ej.
    rewrite N.add_mod_idemp_l by lia. f_equal. lia.
Qed.

(** [g] packets of a section lost after the first [i]: nothing is delivered *)
Lemma mux_lost m p pid cc s i g : bytes s -> cc < 16 -> (1 <= i)%nat -> (1 <= g)%nat ->
  (i + g < length (section_packets pid cc s))%nat -> (length (section_packets pid cc s) <= i + 16)%nat ->
  exists p', mux_all m p (firstn i (section_packets pid cc s) ++ skipn (i + g) (section_packets pid cc s)) = Ok p' /\
    p_buffer p' = [] /\ p_size p' = 0%nat /\ psi_check p' = Ok false.
Proof.
  intros Hb Hcc Hi Hg Hlt Hle. pose proof (section_packets_length pid cc s Hb) as Hn. rewrite Hn in *.
  destruct (mux_prefix m p pid cc s i Hb Hcc ltac:(lia)) as (p1 & H1 & _ & Hc1 & _).
  rewrite mux_all_app, H1. cbn [bind].
  destruct (section_chunks s Hb) as (c & ps & st & Ec & Hps & Hbc & Hlc & Ecat & Hst & Hlen).
  unfold section_packets. rewrite Ec, number_packets_k, skipn_map, number_k_skipn by (assumption || lia).
  set (ks := number_k _ _ _ _).
  assert (Hall : Forall (fun c => bytes c /\ length c = 184%nat) ((0 :: c) :: ps)).
  { constructor; [|assumption]. split; [apply bytes_cons; split; [lia|assumption]|cbn [length]; lia]. }
  assert (Hsk : Forall (fun c => bytes c /\ length c = 184%nat) (skipn (i + g) ((0 :: c) :: ps))).
  { rewrite <- (firstn_skipn (i + g)) in Hall. apply Forall_app in Hall. apply Hall. }
  assert (Hcl : p_cc p1 < 16) by (rewrite Hc1; apply mod_lt_b; lia).
  rewrite (mux_breaks m ks p1 Hcl).
  - eexists. split; [reflexivity|]. repeat split.
  - apply Forall_forall. intros k Hk.
    apply (number_k_in pid _ _ k (mod_lt_b _ 16 ltac:(lia)) Hsk) in Hk as (K1 & K2 & K3 & j & Hj & Ej).
    repeat split; try assumption; try apply K1. rewrite Ej, Hc1.
    rewrite skipn_length in Hj. cbn [length] in Hj.
    rewrite !N.add_mod_idemp_l by lia.
    assert (Hr : 1 <= N.of_nat g + N.of_nat j <= 15) by lia.
    replace (cc + N.of_nat (i + g) + N.of_nat j) with (cc + N.of_nat i + (N.of_nat g + N.of_nat j)) by lia.
    replace (cc + N.of_nat (i - 1) + 1) with (cc + N.of_nat i) by lia.
    set (a := cc + N.of_nat i) in *. set (d := N.of_nat g + N.of_nat j) in *. clearbody a d. dlia.
  - intros E. apply (f_equal (@length packet)) in E. unfold ks in E.
    assert (El : length (skipn (i + g) ((0 :: c) :: ps)) = 0%nat).
    { rewrite <- (number_k_payload pid _ ((cc + N.of_nat (i + g)) mod 16) false), map_length. exact E. }
    rewrite skipn_length in El. cbn [length] in El. lia.
Qed.

(** ** sections starting in the middle of a packet *)
Lemma mux_middle m p k s1 pre r1 rest : section_ok s1 -> s1 = pre ++ r1 ->
  p_buffer p = pre -> InvB p -> pre <> [] -> p_cc p < 16 -> r1 <> [] ->
  packet_ok k -> k_haspl k = true -> k_pusi k = true -> k_cc k = (p_cc p + 1) mod 16 ->
  k_payload k = N.of_nat (length r1) :: r1 ++ rest -> (length r1 < 183)%nat ->
  psi_mux m p (encode k) = Ok (mkPsi (s1 ++ rest) (length s1) (p_pid p) (k_cc k)).
Proof.
  intros Hs E Ep HI Hne Hc Hr Hk Hpl Hpu Hkc Hpay Hl.
  pose proof Hs as (Hb & Hls & H8 & _).
  rewrite mux_encode by assumption. rewrite Hpl, Hpu, Hpay. unfold mux_payload. rewrite Nat2N.id.
  destruct (Nat.leb_spec 183 (length r1)); [lia|].
  destruct (Nat.eqb_spec (length r1) 0) as [H0|H0]; [destruct r1; [congruence|discriminate]|].
  rewrite cc_breaks_eq by (left; lia). rewrite Hkc, N.eqb_refl. cbn [negb bind]. cbv zeta.
  assert (Hd : drain p = p).
  { unfold drain. destruct HI as [_ [[H1 H2]|[H1 H2]]]; [rewrite H1; reflexivity|].
    assert (Hsz : p_size p = length s1).
    { rewrite H2, Ep. rewrite Hls. rewrite E. rewrite Ep in H1. rewrite section_length_app by assumption. reflexivity. }
    destruct (Nat.ltb_spec (p_size p) (length (p_buffer p))) as [Hx|Hx]; [|rewrite andb_false_r; reflexivity].
    rewrite Ep, Hsz, E, app_length in Hx. lia. }
  rewrite Hd. destruct (p_buffer p) as [|x y] eqn:Eb; [congruence|]. rewrite <- Eb in *. clear Eb.
  assert (Hbr : bytes (r1 ++ rest)).
  { destruct Hk as (_ & _ & Hk & _). rewrite Hpay in Hk. apply bytes_cons in Hk. apply Hk. }
  destruct (push_eq p (r1 ++ rest) (or_introl HI) Hbr) as [-> _]. cbn [bind].
  unfold pushed, with_cc. cbn [p_buffer p_size p_pid p_cc]. rewrite Ep, app_assoc, <- E.
  assert (H8' : (8 <= length (s1 ++ rest))%nat) by (rewrite app_length; lia).
  destruct (Nat.ltb_spec (length (s1 ++ rest)) 3); [lia|].
  rewrite section_length_app by lia. rewrite <- Hls. reflexivity.
Qed.

Lemma check_extra p s rest : section_ok s -> p_buffer p = s ++ rest -> p_size p = length s -> bytes rest ->
  psi_check p = Ok true.
Proof.
  intros (Hb & Hl & H8 & Hc) E Hz Hr. apply psi_check_true; rewrite E; [apply bytes_app; auto|].
  rewrite Hz, firstn_app, firstn_all, Nat.sub_diag, firstn_O, app_nil_r, app_length. split; [lia|assumption].
Qed.

(** the next continuation packet throws the second section away *)
Lemma mux_second_lost m s1 rest pid cc k : section_ok s1 -> bytes rest -> cc < 16 ->
  packet_ok k -> k_haspl k = true -> k_pusi k = false -> k_payload k <> [] -> k_cc k = (cc + 1) mod 16 ->
  psi_mux m (mkPsi (s1 ++ rest) (length s1) pid cc) (encode k) = Ok (mkPsi s1 (length s1) pid (k_cc k)).
Proof.
  intros (Hb & Hls & H8 & _) Hr Hc Hk Hpl Hpu Hne Hkc.
  rewrite mux_encode by assumption. rewrite Hpl, Hpu. unfold mux_payload.
  destruct (k_payload k) as [|b t] eqn:Epay; [congruence|].
  rewrite cc_breaks_eq by (left; cbn; lia). cbn [p_cc]. rewrite Hkc, N.eqb_refl. cbn [negb bind].
  set (p := mkPsi _ _ _ _).
  assert (HI : InvB p).
  { split; [apply bytes_app; auto|]. right. cbn [p p_buffer p_size]. rewrite app_length. split; [lia|].
    rewrite section_length_app by lia. assumption. }
  assert (Hbt : bytes (b :: t)) by (rewrite <- Epay; apply Hk).
  destruct (push_eq p (b :: t) (or_introl HI) Hbt) as [-> _]. cbn [bind].
  unfold pushed, trunc. cbn [p p_buffer p_size p_pid p_cc].
  assert (Hlen : (3 <= length ((s1 ++ rest) ++ b :: t))%nat) by (rewrite !app_length; lia).
  destruct (Nat.ltb_spec (length ((s1 ++ rest) ++ b :: t)) 3); [lia|].
  rewrite <- app_assoc. rewrite section_length_app by lia. rewrite <- Hls.
  destruct (Nat.ltb_spec (length s1) (length (s1 ++ rest ++ b :: t))) as [Hx|Hx];
    [|rewrite !app_length in Hx; cbn [length] in Hx; lia].
  cbn [with_buffer with_cc p_buffer p_size p_pid p_cc]. rewrite resize_shrink by lia.
  rewrite firstn_app, firstn_all, Nat.sub_diag, firstn_O, app_nil_r. reflexivity.
Qed.

(** the next start packet in sequence with nonzero pointer goes on with the second one *)
Lemma mux_second_found m s1 rest pid cc k r2 rest2 s2 : section_ok s1 -> section_ok s2 -> bytes rest -> cc < 16 ->
  rest <> [] -> s2 = rest ++ r2 -> r2 <> [] ->
  packet_ok k -> k_haspl k = true -> k_pusi k = true -> k_cc k = (cc + 1) mod 16 ->
  k_payload k = N.of_nat (length r2) :: r2 ++ rest2 -> (length r2 < 183)%nat ->
  psi_mux m (mkPsi (s1 ++ rest) (length s1) pid cc) (encode k) = Ok (mkPsi (s2 ++ rest2) (length s2) pid (k_cc k)).
Proof.
  intros (Hb & Hls & H8 & _) (Hb2 & Hls2 & H82 & _) Hr Hc Hre E2 Hr2 Hk Hpl Hpu Hkc Hpay Hl.
  rewrite mux_encode by assumption. rewrite Hpl, Hpu, Hpay. unfold mux_payload. rewrite Nat2N.id.
  destruct (Nat.leb_spec 183 (length r2)); [lia|].
  destruct (Nat.eqb_spec (length r2) 0) as [H0|H0]; [destruct r2; [congruence|discriminate]|].
  rewrite cc_breaks_eq by (left; cbn; lia). cbn [p_cc]. rewrite Hkc, N.eqb_refl. cbn [negb bind]. cbv zeta.
  cbn [p_buffer]. destruct (s1 ++ rest) as [|x y] eqn:Eb; [apply (f_equal (@length N)) in Eb; rewrite app_length in Eb; cbn in Eb; lia|].
  rewrite <- Eb.
  assert (Hd : drain (mkPsi (s1 ++ rest) (length s1) pid cc) = mkPsi rest 0 pid cc).
  { unfold drain. cbn [p_size p_buffer p_pid p_cc]. rewrite app_length.
    destruct (Nat.eqb_spec (length s1) 0); [lia|]. destruct rest as [|z w]; [congruence|].
    destruct (Nat.ltb_spec (length s1) (length s1 + length (z :: w))); [|cbn [length] in *; lia].
    cbn [negb andb]. rewrite skipn_app, skipn_all, Nat.sub_diag. reflexivity. }
  rewrite Hd.
  assert (Hbr : bytes (r2 ++ rest2)).
  { destruct Hk as (_ & _ & Hk & _). rewrite Hpay in Hk. apply bytes_cons in Hk. apply Hk. }
  destruct (push_eq (mkPsi rest 0 pid cc) (r2 ++ rest2) (or_intror (conj eq_refl Hr)) Hbr) as [-> _]. cbn [bind].
  unfold pushed, with_cc. cbn [p_buffer p_size p_pid p_cc]. rewrite app_assoc, <- E2.
  assert (H8' : (8 <= length (s2 ++ rest2))%nat) by (rewrite app_length; lia).
  destruct (Nat.ltb_spec (length (s2 ++ rest2)) 3); [lia|].
  rewrite section_length_app by lia. rewrite <- Hls2. reflexivity.
Qed.
