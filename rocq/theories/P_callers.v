(** Proofs for C86: the build profiles and the callers. *)
From Verif Require Import Prelude M_ts M_pes M_text M_tables M_multi M_words M_shows M_play M_count M_tune M_watch M_due M_carry P_profile.

#[local] Hint Resolve ag_get_payload_offset ag_pes_get_payload_offset ag_pes_get_length ag_pts_delta ag_dvb_from_str ag_dvb_split : prof.
#[local] Hint Resolve ag_pat_demux ag_pmt_demux ag_nit_demux ag_sdt_demux ag_eit_demux ag_tdt_demux ag_tot_demux : prof.
Lemma ag_collect pid l cur : ag (collect Debug pid l cur) (collect Release pid l cur).
Proof. revert cur. induction l as [|x l IH]; intros cur; cbn [collect]; ags. Qed.
Lemma ag_open p : ag (open Debug p) (open Release p).
Proof. unfold open. ags. Qed.
#[local] Hint Resolve ag_open : prof.
Lemma ag_open_all l : ag (open_all Debug l) (open_all Release l).
Proof. induction l as [|x l IH]; cbn [open_all]; ags. Qed.
Lemma ag_play pid l : ag (play Debug pid l) (play Release pid l).
Proof. apply ag_bind; [apply ag_collect|intros x; apply ag_open_all]. Qed.
Lemma ag_elapsed t l : ag (elapsed Debug t l) (elapsed Release t l).
Proof. revert t. induction l as [|x l IH]; intros t; cbn [elapsed]; ags. Qed.
Lemma ag_gather pid l last cur : ag (gather Debug pid l last cur) (gather Release pid l last cur).
Proof. revert last cur. induction l as [|x l IH]; intros last cur; cbn [gather]; ags. Qed.
Lemma ag_careful pid l : ag (careful Debug pid l) (careful Release pid l).
Proof. apply ag_bind; [apply ag_gather|intros x; apply ag_open_all]. Qed.

Lemma ag_each {A B} (f g : A -> res B) l : (forall x, ag (f x) (g x)) -> ag (each f l) (each g l).
Proof. intros H. induction l as [|x l IH]; cbn [each]; [apply ag_refl|]. apply ag_bind; [apply H|intros y]. apply ag_bind; [exact IH|intros ys; apply ag_refl]. Qed.
Lemma ag_service_item s : ag (service_item Debug s) (service_item Release s). Proof. unfold service_item. ags. Qed.
Lemma ag_event_item s : ag (event_item Debug s) (event_item Release s). Proof. unfold event_item. ags. Qed.
Lemma ag_sdt_made a b c l : ag (sdt_made Debug a b c l) (sdt_made Release a b c l).
Proof. apply ag_bind; [apply ag_each, ag_service_item|intros x; apply ag_refl]. Qed.
Lemma ag_eit_made a b c d e l : ag (eit_made Debug a b c d e l) (eit_made Release a b c d e l).
Proof. apply ag_bind; [apply ag_each, ag_event_item|intros x; apply ag_refl]. Qed.
Lemma ag_nit_made a b c d l : ag (nit_made Debug a b c d l) (nit_made Release a b c d l).
Proof. unfold nit_made. ags. Qed.
#[local] Hint Resolve ag_sdt_made ag_eit_made ag_nit_made : prof.
Lemma ag_send t pid cc dst : ag (send Debug t pid cc dst) (send Release t pid cc dst).
Proof. destruct t; cbn [send]; ags. Qed.
Lemma ag_show_table s : ag (show_table Debug s) (show_table Release s).
Proof. destruct s; cbn [show_table]; ags. Qed.
#[local] Hint Resolve ag_send ag_show_table : prof.
Lemma ag_multiplex jobs c dst : ag (multiplex Debug jobs c dst) (multiplex Release jobs c dst).
Proof. revert c dst. induction jobs as [|[pid t] r IH]; intros c dst; cbn [multiplex]; ags. Qed.
Lemma ag_broadcast jobs c dst : ag (broadcast Debug jobs c dst) (broadcast Release jobs c dst).
Proof. revert c dst. induction jobs as [|[pid t] r IH]; intros c dst; cbn [broadcast]; ags. Qed.

Lemma ag_watch want l : ag (watch Debug want l) (watch Release want l).
Proof. apply ag_bind; [apply ag_tune|intros u]. apply ag_each. intros i. apply ag_bind; [apply ag_careful|intros v; apply ag_refl]. Qed.
#[local] Hint Resolve ag_get_pcr : prof.
Lemma ag_due pcr_pid pid c l : ag (due Debug pcr_pid pid c l) (due Release pcr_pid pid c l).
Proof. revert c. induction l as [|x l IH]; intros c; cbn [due]; ags. Qed.

#[local] Hint Resolve ag_set_pid ag_set_cc : prof.
Lemma ag_carry_one pid c f pcr d : ag (carry_one Debug pid c f pcr d) (carry_one Release pid c f pcr d).
Proof. apply ag_bind; [apply ag_set_pid|intros p]. apply ag_bind; [apply ag_set_cc|intros q; apply ag_refl]. Qed.
Lemma ag_carry_more pid n : forall c d, ag (carry_more Debug pid n c d) (carry_more Release pid n c d).
Proof.
  induction n as [|n IH]; intros c d; destruct d as [|b d]; cbn [carry_more]; try apply ag_refl.
  apply ag_bind; [apply ag_carry_one|intros p]. apply ag_bind; [apply IH|intros [r k]; apply ag_refl].
Qed.
Lemma ag_carry_all pid l : forall c, ag (carry_all Debug pid c l) (carry_all Release pid c l).
Proof.
  induction l as [|[pcr d] l IH]; intros c; cbn [carry_all]; [apply ag_refl|]. apply ag_bind; [|intros [p k]; apply ag_bind; [apply IH|intros [r j]; apply ag_refl]].
  unfold carry. cbv zeta. apply ag_bind; [apply ag_carry_one|intros p]. apply ag_bind; [apply ag_carry_more|intros [r k]; apply ag_refl].
Qed.
Lemma ag_clock_of ts : ag (clock_of Debug ts) (clock_of Release ts).
Proof. unfold clock_of. ags. Qed.
