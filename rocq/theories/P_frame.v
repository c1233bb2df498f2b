(** Proofs: what is sent is added behind what is there; what is read is added to what was read. No conditions. *)
From Verif Require Import Prelude M_bytes M_ts M_text M_utils M_desc M_psi M_tables S_tables P_desc P_desc2.

(** ** appending functions *)
Definition adds (f : list N -> res (list N)) : Prop := forall p b, f (p ++ b) = (x <- f b ;; Ok (p ++ x)).
Lemma add_u16 p b k v : set_u16_at (p ++ b) (length p + k) v = (x <- set_u16_at b k v ;; Ok (p ++ x)).
Proof. apply on_from_at. Qed.
Lemma add_u24 p b k v : set_u24_at (p ++ b) (length p + k) v = (x <- set_u24_at b k v ;; Ok (p ++ x)).
Proof. apply on_from_at. Qed.
Lemma add_u32 p b k v : set_u32_at (p ++ b) (length p + k) v = (x <- set_u32_at b k v ;; Ok (p ++ x)).
Proof. apply on_from_at. Qed.
Lemma bind_res {A B C} (r : res A) (f : A -> res B) (g : B -> res C) : bind (bind r f) g = bind r (fun x => bind (f x) g).
Proof. destruct r; reflexivity. Qed.
Ltac fr_norm := rewrite ?resize_app, ?app_length, <- ?app_assoc, <- ?Nat.add_assoc.
Ltac fr_step := match goal with
  | |- context [set (?p ++ ?b) (length ?p + ?k) ?v] => rewrite (set_at p b k v)
  | |- context [set_u16_at (?p ++ ?b) (length ?p + ?k) ?v] => rewrite (add_u16 p b k v)
  | |- context [set_u24_at (?p ++ ?b) (length ?p + ?k) ?v] => rewrite (add_u24 p b k v)
  | |- context [set_u32_at (?p ++ ?b) (length ?p + ?k) ?v] => rewrite (add_u32 p b k v) end.
Ltac fr_split := match goal with
  | |- bind (bind ?r _) _ = _ => destruct r; cbn [bind]; try reflexivity
  | |- bind ?r _ = _ => destruct r; cbn [bind]; try reflexivity end.
Ltac fr := repeat first [progress fr_step | fr_split]; try reflexivity.

Lemma fr_dvb m t : adds (dvb_assemble m t).
Proof. intros p b. unfold dvb_assemble. destruct (dvb_bytes m t); cbn [bind]; try reflexivity. rewrite app_assoc. reflexivity. Qed.
Lemma fr_sized m t : adds (dvb_assemble_sized m t).
Proof.
  intros p b. unfold dvb_assemble_sized. cbv zeta. rewrite <- app_assoc, fr_dvb. destruct (dvb_assemble m t (b ++ [0])) as [x| |]; cbn [bind]; try reflexivity.
  rewrite !app_length. unfold sub_idx. replace (length p + length x - (length p + length b))%nat with (length x - length b)%nat by lia.
  destruct (Nat.leb_spec (length p + length b) (length p + length x)), (Nat.leb_spec (length b) (length x)); try lia; cbn [bind]; try reflexivity.
  destruct (Nat.leb_spec 1 (length x - length b)); cbn [bind]; try reflexivity. apply set_at.
Qed.
Lemma fr_0A m : forall items, adds (x0A_items m items).
Proof. induction items as [|i r IH]; intros p b; cbn [x0A_items]; [reflexivity|]. rewrite fr_dvb. destruct (dvb_assemble m (d0A_code i) b); cbn [bind]; try reflexivity. rewrite <- app_assoc. apply IH. Qed.
Lemma fr_41 : forall items p b k, x41_items items (p ++ b) (length p + k) = (x <- x41_items items b k ;; Ok (p ++ x)).
Proof. induction items as [|i r IH]; intros p b k; cbn [x41_items]; [reflexivity|]. fr_norm. fr. apply IH. Qed.
Lemma fr_83 : forall items p b k, x83_items items (p ++ b) (length p + k) = (x <- x83_items items b k ;; Ok (p ++ x)).
Proof. induction items as [|i r IH]; intros p b k; cbn [x83_items]; [reflexivity|]. fr_norm. fr. apply IH. Qed.
Lemma fr_4E m : forall items, adds (x4E_items m items).
Proof.
  induction items as [|[x y] r IH]; intros p b; cbn [x4E_items]; [reflexivity|]. rewrite fr_sized. destruct (dvb_assemble_sized m x b) as [l| |]; cbn [bind]; try reflexivity.
  rewrite fr_sized. destruct (dvb_assemble_sized m y l); cbn [bind]; try reflexivity. apply IH.
Qed.
Lemma fr_58 m : forall items, adds (x58_items m items).
Proof.
  induction items as [|i r IH]; intros p b; cbn [x58_items]; [reflexivity|]. rewrite fr_dvb. destruct (dvb_assemble m (d58_code i) b); cbn [bind]; try reflexivity. cbv zeta. fr_norm. fr. apply IH.
Qed.
Lemma fr_desc m d : adds (desc_assemble m d).
Proof.
  destruct d; intros p b; cbn [desc_assemble].
  - unfold x09_assemble. cbv zeta. fr_norm. fr. rewrite <- app_assoc. reflexivity.
  - unfold x0A_assemble. rewrite <- !app_assoc. apply fr_0A.
  - unfold x0E_assemble. cbv zeta. fr_norm. fr.
  - unfold x40_assemble. rewrite <- app_assoc. apply fr_sized.
  - unfold x41_assemble. cbv zeta. fr_norm. fr. apply fr_41.
  - unfold x43_assemble. cbv zeta. fr_norm. fr.
  - unfold x44_assemble. cbv zeta. fr_norm. fr.
  - unfold x48_assemble. cbv zeta. rewrite <- !app_assoc. rewrite fr_sized. fr_split. apply fr_sized.
  - unfold x4D_assemble. cbv zeta. rewrite <- !app_assoc. rewrite fr_dvb. fr_split. rewrite fr_sized. fr_split. apply fr_sized.
  - unfold x4E_assemble. cbv zeta. destruct (255 <? _)%nat; [reflexivity|]. rewrite <- !app_assoc. rewrite fr_dvb.
    match goal with |- context [dvb_assemble m ?t ?c] => destruct (dvb_assemble m t c) as [c1| |] end; cbn [bind]; try reflexivity.
    rewrite <- app_assoc, fr_4E. destruct (x4E_items m _ (c1 ++ [0])) as [x| |]; cbn [bind]; try reflexivity.
    rewrite !app_length. unfold sub_idx. replace (length p + length x - (length p + length c1))%nat with (length x - length c1)%nat by lia.
    destruct (Nat.leb_spec (length p + length c1) (length p + length x)), (Nat.leb_spec (length c1) (length x)); try lia; cbn [bind]; try reflexivity.
    destruct (Nat.leb_spec 1 (length x - length c1)); cbn [bind]; try reflexivity. rewrite set_at. fr_split. apply fr_sized.
  - unfold x52_assemble. rewrite <- !app_assoc. reflexivity.
  - unfold x58_assemble. rewrite <- !app_assoc. apply fr_58.
  - unfold x5A_assemble. cbv zeta. rewrite <- !(app_assoc p). cbn [app]. rewrite <- !(app_assoc b). cbn [app]. fr_norm. fr.
  - unfold x83_assemble. cbv zeta. fr_norm. fr. apply fr_83.
  - unfold raw_assemble. destruct (255 <? _)%nat; [reflexivity|]. rewrite <- !app_assoc. reflexivity.
Qed.
Lemma fr_descs m : forall ds, adds (descs_bytes m ds).
Proof. induction ds as [|d r IH]; intros p b; cbn [descs_bytes]; [reflexivity|]. rewrite fr_desc. fr_split. apply IH. Qed.
Lemma behind f : adds f -> forall b, f b = (x <- f [] ;; Ok (b ++ x)).
Proof. intros A b. rewrite <- (A b []), app_nil_r. reflexivity. Qed.

(** ** packets *)
Lemma copy_at (p b : list N) i j src : copy_from (p ++ b) (length p + i) (length p + j) src = (x <- copy_from b i j src ;; Ok (p ++ x)).
Proof.
  unfold copy_from. rewrite app_length. replace (length p + j - (length p + i))%nat with (j - i)%nat by lia.
  destruct (Nat.leb_spec (length p + i) (length p + j)), (Nat.leb_spec i j); try lia; cbn [andb]; [|reflexivity].
  destruct (Nat.leb_spec (length p + j) (length p + length b)), (Nat.leb_spec j (length b)); try lia; cbn [andb]; [|reflexivity].
  destruct (j - i =? length src)%nat; [|reflexivity]. cbn [bind]. rewrite firstn_app_2, <- !app_assoc, skipn_plus, skipn_app, skipn_all, Nat.sub_diag. reflexivity.
Qed.
Lemma fr_loop m q p : forall fuel cc b ps k, demux_loop fuel m q cc (p ++ b) ps (length p + k) =
  (r <- demux_loop fuel m q cc b ps k ;; let '(d, s, c) := r in Ok (p ++ d, (length p + s)%nat, c)).
Proof.
  induction fuel as [|f IH]; intros cc b ps k; cbn [demux_loop]; [reflexivity|]. destruct (ps <? p_size q)%nat; [|reflexivity].
  rewrite set_at. destruct (set b k 71) as [b1| |]; cbn [bind]; try reflexivity.
  rewrite on_from_at. destruct (on_from b1 k _) as [b2| |]; cbn [bind]; try reflexivity.
  rewrite on_from_at. destruct (on_from b2 k _) as [b3| |]; cbn [bind]; try reflexivity.
  rewrite on_from_at. destruct (on_from b3 k _) as [b4| |]; cbn [bind]; try reflexivity.
  destruct (addw U8 m cc 1) as [c1| |]; cbn [bind]; try reflexivity.
  assert (E : (if (ps =? 0)%nat then on_from (p ++ b4) (length p + k) set_pusi_1 else Ok (p ++ b4)) =
              (x <- (if (ps =? 0)%nat then on_from b4 k set_pusi_1 else Ok b4) ;; Ok (p ++ x))) by (destruct (ps =? 0)%nat; [apply on_from_at|reflexivity]).
  rewrite E. clear E. destruct (if (ps =? 0)%nat then on_from b4 k set_pusi_1 else Ok b4) as [b5| |]; cbn [bind]; try reflexivity.
  match goal with |- context [slice (p_buffer q) ?x ?y] => destruct (slice (p_buffer q) x y) as [src| |] end; cbn [bind]; try reflexivity.
  rewrite <- !Nat.add_assoc, copy_at. match goal with |- context [copy_from b5 ?x ?y src] => destruct (copy_from b5 x y src) as [b6| |] end; cbn [bind]; try reflexivity. apply IH.
Qed.
Lemma fr_psi m q p b : psi_demux m q (p ++ b) = (r <- psi_demux m q b ;; Ok (fst r, p ++ snd r)).
Proof.
  unfold psi_demux. cbv zeta. rewrite !resize_app, <- app_assoc, app_length, fr_loop.
  destruct (demux_loop _ m q (p_cc q) _ 0 (length b)) as [[[d s] c]| |]; cbn [bind]; try reflexivity.
  rewrite app_length. unfold sub_idx. replace (length p + length d - (length p + s))%nat with (length d - s)%nat by lia.
  destruct (Nat.leb_spec (length p + s) (length p + length d)), (Nat.leb_spec s (length d)); try lia; cbn [bind]; [|reflexivity].
  destruct (0 <? length d - s)%nat; [|reflexivity]. destruct (slice FILL_PACKET 0 (length d - s)) as [f| |]; cbn [bind]; try reflexivity.
  rewrite copy_at. destruct (copy_from d s (length d) f); reflexivity.
Qed.
Definition after (p : list N) (r : res (N * list N)) : res (N * list N) := match r with Ok (cc, out) => Ok (cc, p ++ out) | Panic => Panic | Hang => Hang end.
Lemma fr_sections m last pid p : forall l n cc b, demux_sections m last pid n l cc (p ++ b) = after p (demux_sections m last pid n l cc b).
Proof.
  induction l as [|q l IH]; intros n cc b; cbn [demux_sections]; [reflexivity|].
  destruct (set (p_buffer q) 6 _) as [b1| |]; cbn [bind]; try reflexivity. destruct (set b1 7 last) as [b2| |]; cbn [bind]; try reflexivity.
  destruct (psi_finalize _) as [q'| |]; cbn [bind]; try reflexivity. rewrite fr_psi. destruct (psi_demux m _ b) as [[q2 d]| |]; cbn [bind fst snd]; try reflexivity. apply IH.
Qed.
Lemma fr_table m l pid cc p b : demux_table m l pid cc (p ++ b) = after p (demux_table m l pid cc b).
Proof. unfold demux_table. destruct l; [reflexivity|]. apply fr_sections. Qed.
Lemma fr_send m pid p : forall l cc b, eit_send m pid l cc (p ++ b) = after p (eit_send m pid l cc b).
Proof.
  induction l as [|q l IH]; intros cc b; cbn [eit_send]; [reflexivity|]. rewrite fr_psi. destruct (psi_demux m _ b) as [[q2 d]| |]; cbn [bind fst snd]; try reflexivity. apply IH.
Qed.
Ltac fr_dem := intros m t pid cc dst; match goal with |- ?f m t pid cc dst = _ => unfold f end;
  match goal with |- bind ?r _ = _ => destruct r; cbn [bind]; try reflexivity end.
Lemma fr_pat : forall m t pid cc dst, pat_demux m t pid cc dst = after dst (pat_demux m t pid cc []). Proof. fr_dem. rewrite <- fr_table, app_nil_r. reflexivity. Qed.
Lemma fr_pmt : forall m t pid cc dst, pmt_demux m t pid cc dst = after dst (pmt_demux m t pid cc []). Proof. fr_dem. rewrite <- fr_table, app_nil_r. reflexivity. Qed.
Lemma fr_nit : forall m t pid cc dst, nit_demux m t pid cc dst = after dst (nit_demux m t pid cc []). Proof. fr_dem. rewrite <- fr_table, app_nil_r. reflexivity. Qed.
Lemma fr_sdt : forall m t pid cc dst, sdt_demux m t pid cc dst = after dst (sdt_demux m t pid cc []). Proof. fr_dem. rewrite <- fr_table, app_nil_r. reflexivity. Qed.
Lemma fr_eit : forall m t pid cc dst, eit_demux m t pid cc dst = after dst (eit_demux m t pid cc []). Proof. fr_dem. rewrite <- fr_send, app_nil_r. reflexivity. Qed.
Lemma fr_tdt : forall m t pid cc dst, tdt_demux m t pid cc dst = after dst (tdt_demux m t pid cc []).
Proof. fr_dem. cbv zeta. replace dst with (dst ++ []) by apply app_nil_r. rewrite fr_psi, app_nil_r. destruct (psi_demux m _ []) as [[q d]| |]; reflexivity. Qed.
Lemma fr_tot : forall m t pid cc dst, tot_demux m t pid cc dst = after dst (tot_demux m t pid cc []).
Proof. fr_dem. destruct (psi_finalize _) as [q| |]; cbn [bind]; try reflexivity. cbv zeta. replace dst with (dst ++ []) by apply app_nil_r. rewrite fr_psi, app_nil_r. destruct (psi_demux m _ []) as [[q' d]| |]; reflexivity. Qed.

(** ** reading *)
Lemma rd_descs_loop m s : forall fuel skip ds, descs_loop fuel m s skip ds = (x <- descs_loop fuel m s skip [] ;; Ok (ds ++ x)).
Proof.
  induction fuel as [|f IH]; intros skip ds; cbn [descs_loop]; [reflexivity|]. destruct (skip + 2 <=? length s)%nat; [|cbn [bind]; rewrite app_nil_r; reflexivity].
  destruct (get s (skip + 1)) as [n| |]; cbn [bind]; try reflexivity. destruct (length s <? _)%nat; [cbn [bind]; rewrite app_nil_r; reflexivity|].
  destruct (slice s skip _) as [x| |]; cbn [bind]; try reflexivity. destruct (desc_parse m x) as [d| |]; cbn [bind]; try reflexivity.
  rewrite (IH _ (ds ++ [d])), (IH _ ([] ++ [d])). destruct (descs_loop f m s _ []); cbn [bind]; try reflexivity. rewrite <- app_assoc. reflexivity.
Qed.
Lemma rd_descs m ds s : descs_parse m ds s = (x <- descs_parse m [] s ;; Ok (ds ++ x)).
Proof. apply rd_descs_loop. Qed.
Lemma rd_items_loop {A} h (parse : list N -> res A) ptr : forall fuel skip items, items_loop fuel h parse ptr skip items = (x <- items_loop fuel h parse ptr skip [] ;; Ok (items ++ x)).
Proof.
  induction fuel as [|f IH]; intros skip items; cbn [items_loop]; [reflexivity|]. destruct (skip + h <=? length ptr)%nat; [|cbn [bind]; rewrite app_nil_r; reflexivity].
  destruct (get_u16_at ptr _) as [n| |]; cbn [bind]; try reflexivity. destruct (length ptr <? _)%nat; [cbn [bind]; rewrite app_nil_r; reflexivity|].
  destruct (slice ptr skip _) as [x| |]; cbn [bind]; try reflexivity. destruct (parse x) as [i| |]; cbn [bind]; try reflexivity.
  rewrite (IH _ (items ++ [i])), (IH _ ([] ++ [i])). destruct (items_loop f h parse ptr _ []); cbn [bind]; try reflexivity. rewrite <- app_assoc. reflexivity.
Qed.
Lemma rd_items {A} h (parse : list N -> res A) ptr items : parse_items h parse ptr items = (x <- parse_items h parse ptr [] ;; Ok (items ++ x)).
Proof. apply rd_items_loop. Qed.

Lemma rd_pat_loop ptr : forall fuel skip items, pat_loop fuel ptr skip items = (x <- pat_loop fuel ptr skip [] ;; Ok (items ++ x)).
Proof.
  induction fuel as [|f IH]; intros skip items; cbn [pat_loop]; [reflexivity|]. destruct (skip + 4 <=? length ptr)%nat; [|cbn [bind]; rewrite app_nil_r; reflexivity].
  destruct (slice ptr skip _) as [x| |]; cbn [bind]; try reflexivity. destruct (pat_item_parse x) as [i| |]; cbn [bind]; try reflexivity.
  rewrite (IH _ (items ++ [i])), (IH _ ([] ++ [i])). destruct (pat_loop f ptr _ []); cbn [bind]; try reflexivity. rewrite <- app_assoc. reflexivity.
Qed.
(** what a section does to a table: nothing, or it adds the same to every table *)
Definition reads_as {A} (parse : A -> psi -> res A) (add : A -> A -> A) (none : A) (p : psi) : Prop :=
  (forall old, parse old p = Ok old) \/ (forall old, parse old p = (v <- parse none p ;; Ok (add old v))).
Ltac rd_head c := destruct c as [[|]| |] eqn:?; cbn [bind negb]; [right|left; reflexivity|right; reflexivity|right; reflexivity]; intros old.
Ltac rd_step := match goal with
  | |- bind ?r _ = bind (bind ?r _) _ => destruct r; cbn [bind]; try reflexivity; cbv zeta end.
Lemma rd_pat m p : reads_as (pat_parse m) pat_add pat_default p.
Proof. unfold reads_as, pat_parse. rd_head (pat_check p). do 3 rd_step. rewrite rd_pat_loop. cbn [pat_items pat_default]. destruct (pat_loop _ _ 0 []); reflexivity. Qed.
Lemma rd_pmt m p : reads_as (pmt_parse m) pmt_add pmt_default p.
Proof.
  unfold reads_as, pmt_parse. rd_head (pmt_check p). do 5 rd_step. rewrite rd_descs. cbn [pmt_items pmt_descs pmt_default]. destruct (descs_parse m [] _); cbn [bind]; try reflexivity.
  rd_step. rewrite rd_items. destruct (parse_items _ _ _ []); reflexivity.
Qed.
Lemma rd_nit m p : reads_as (nit_parse m) nit_add nit_default p.
Proof.
  unfold reads_as, nit_parse. rd_head (nit_check p). do 5 rd_step. rewrite rd_descs. cbn [nit_items nit_descs nit_default]. destruct (descs_parse m [] _); cbn [bind]; try reflexivity.
  rd_step. rewrite rd_items. destruct (parse_items _ _ _ []); reflexivity.
Qed.
Lemma rd_sdt m p : reads_as (sdt_parse m) sdt_add sdt_default p.
Proof. unfold reads_as, sdt_parse. rd_head (sdt_check p). do 5 rd_step. rewrite rd_items. cbn [sdt_items sdt_default]. destruct (parse_items _ _ _ []); reflexivity. Qed.
Lemma rd_eit m p : reads_as (eit_parse m) eit_add eit_default p.
Proof. unfold reads_as, eit_parse. rd_head (eit_check p). do 6 rd_step. rewrite rd_items. cbn [eit_items eit_default]. destruct (parse_items _ _ _ []); reflexivity. Qed.
Lemma rd_tot m p : reads_as (tot_parse m) tot_add tot_default p.
Proof.
  unfold reads_as, tot_parse. rd_head (tot_check p). do 7 rd_step. rewrite rd_descs. cbn [tot_descs tot_default]. destruct (descs_parse m [] _); reflexivity.
Qed.
Lemma rd_tdt m p : reads_as (tdt_parse m) (fun _ v => v) 0 p.
Proof. unfold reads_as, tdt_parse. rd_head (tdt_check p). do 4 rd_step. destruct (addw U64 m _ _); reflexivity. Qed.

(** ** any number of sections *)
Fixpoint hear {A} (parse : A -> psi -> res A) (ps : list psi) (old : A) : res A :=
  match ps with [] => Ok old | p :: r => v <- parse old p ;; hear parse r v end.
Lemma hear_many {A} (parse : A -> psi -> res A) add none : (forall a b c, add (add a b) c = add a (add b c)) -> (forall v, add none v = v) ->
  (forall p, reads_as parse add none p) -> forall ps, (forall old, hear parse ps old = Ok old) \/ (forall old, hear parse ps old = (v <- hear parse ps none ;; Ok (add old v))).
Proof.
  intros As Id R. induction ps as [|p r IH]; [left; reflexivity|]. cbn [hear]. destruct (R p) as [H|H].
  - destruct IH as [I|I]; [left|right]; intros old; rewrite H; [apply I|]. rewrite H. cbn [bind]. apply I.
  - right. intros old. rewrite H. rewrite (H none). destruct (parse none p) as [v| |]; cbn [bind]; try reflexivity. rewrite Id.
    destruct IH as [I|I]; [rewrite !I; reflexivity|]. rewrite I, (I v). destruct (hear parse r none); cbn [bind]; try reflexivity. rewrite As. reflexivity.
Qed.
Lemma many_pat m : forall ps, (forall old, hear (pat_parse m) ps old = Ok old) \/ (forall old, hear (pat_parse m) ps old = (v <- hear (pat_parse m) ps pat_default ;; Ok (pat_add old v))).
Proof. apply hear_many; [intros; unfold pat_add; cbn; rewrite app_assoc; reflexivity|intros []; reflexivity|apply rd_pat]. Qed.
Lemma many_pmt m : forall ps, (forall old, hear (pmt_parse m) ps old = Ok old) \/ (forall old, hear (pmt_parse m) ps old = (v <- hear (pmt_parse m) ps pmt_default ;; Ok (pmt_add old v))).
Proof. apply hear_many; [intros; unfold pmt_add; cbn; rewrite !app_assoc; reflexivity|intros []; reflexivity|apply rd_pmt]. Qed.
Lemma many_nit m : forall ps, (forall old, hear (nit_parse m) ps old = Ok old) \/ (forall old, hear (nit_parse m) ps old = (v <- hear (nit_parse m) ps nit_default ;; Ok (nit_add old v))).
Proof. apply hear_many; [intros; unfold nit_add; cbn; rewrite !app_assoc; reflexivity|intros []; reflexivity|apply rd_nit]. Qed.
Lemma many_sdt m : forall ps, (forall old, hear (sdt_parse m) ps old = Ok old) \/ (forall old, hear (sdt_parse m) ps old = (v <- hear (sdt_parse m) ps sdt_default ;; Ok (sdt_add old v))).
Proof. apply hear_many; [intros; unfold sdt_add; cbn; rewrite !app_assoc; reflexivity|intros []; reflexivity|apply rd_sdt]. Qed.
Lemma many_eit m : forall ps, (forall old, hear (eit_parse m) ps old = Ok old) \/ (forall old, hear (eit_parse m) ps old = (v <- hear (eit_parse m) ps eit_default ;; Ok (eit_add old v))).
Proof. apply hear_many; [intros; unfold eit_add; cbn; rewrite !app_assoc; reflexivity|intros []; reflexivity|apply rd_eit]. Qed.
Lemma many_tot m : forall ps, (forall old, hear (tot_parse m) ps old = Ok old) \/ (forall old, hear (tot_parse m) ps old = (v <- hear (tot_parse m) ps tot_default ;; Ok (tot_add old v))).
Proof. apply hear_many; [intros; unfold tot_add; cbn; rewrite !app_assoc; reflexivity|intros []; reflexivity|apply rd_tot]. Qed.
Lemma many_tdt m : forall ps, (forall old, hear (tdt_parse m) ps old = Ok old) \/ (forall old, hear (tdt_parse m) ps old = hear (tdt_parse m) ps 0).
Proof.
  intros ps. destruct (hear_many (tdt_parse m) (fun _ v => v) 0 (fun _ _ _ => eq_refl) (fun _ => eq_refl) (rd_tdt m) ps) as [H|H]; [left; exact H|right].
  intros old. rewrite H. destruct (hear (tdt_parse m) ps 0); reflexivity.
Qed.
