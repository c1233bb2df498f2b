(** C101: elementary streams in transport packets. *)
From Verif Require Import Prelude Layout S_ts M_ts M_pes M_reader M_play S_reader S_play.
From Verif Require P_play Props_reader.

Definition no_errors (l : list event) : Prop := Forall (fun e => match e with Fail _ => False | Chunk _ => True end) l.
Definition is_packet (pk : list N) : Prop := length pk = 188%nat /\ hd 0 pk = 0x47.
From Verif Require Facts.

(** any PES packets (with PTS, DTS, further header fields, or without the optional header; with their length or, as video,
    without) in pieces of any sizes in packets with any adaptation fields, among packets of any other PIDs and packets
    without payload, joined in the middle of a PES packet: the player gets the time stamps and the data of each *)
Theorem C101_play : forall m pid lead ls ps l, pid < 8192 -> Forall piece_ok lead ->
  Forall2 pieces_of ls (map (fun x => pes_bytes (fst x) (snd x)) ps) ->
  Forall (fun x => pes_ok (fst x) /\ length_ok (fst x) (snd x)) ps ->
  among pid (map (es_packet pid 0) lead ++ concat (map (unit_packets pid) ls)) l ->
  play m pid l = Ok (map (fun x => Some (holds (fst x))) ps).
Proof. intros m pid lead ls ps l P L F O A. exact (P_play.play_all m pid lead ls ps l L F P O A). Qed.
Print Assumptions C101_play.

(** PES packets of any content: the same bytes come out of the packets *)
Theorem C101_collect : forall m pid lead ls ps l, pid < 8192 -> Forall piece_ok lead -> Forall2 pieces_of ls ps ->
  among pid (map (es_packet pid 0) lead ++ concat (map (unit_packets pid) ls)) l -> collect m pid l None = Ok ps.
Proof. intros m pid lead ls ps l P L F A. exact (P_play.collect_all m pid lead ls ps l L F P A). Qed.
Print Assumptions C101_collect.

(** from the bytes of the stream, read in portions of any sizes *)
Theorem C101_stream : forall m pid lead ls ps l n junk tail sched packet, pid < 8192 -> Forall piece_ok lead ->
  Forall2 pieces_of ls (map (fun x => pes_bytes (fst x) (snd x)) ps) ->
  Forall (fun x => pes_ok (fst x) /\ length_ok (fst x) (snd x)) ps ->
  among pid (map (es_packet pid 0) lead ++ concat (map (unit_packets pid) ls)) l ->
  ~ In 0x47 junk -> Forall is_packet l -> (length (to_sync tail) < 188)%nat -> no_errors sched -> (188 <= length packet)%nat -> (length l <= n)%nat ->
  (' (pks, _) <- read_all n (mkSource (junk ++ concat l ++ tail) sched) packet ;; play m pid pks) = Ok (map (fun x => Some (holds (fst x))) ps).
Proof.
  intros m pid lead ls ps l n junk tail sched packet P L F O A J K T N B H.
  destruct (Props_reader.C57_aligned n junk l tail sched packet J K T N B) as (s & R & _).
  rewrite R. cbn [bind]. rewrite firstn_all2 by exact H. exact (P_play.play_all m pid lead ls ps l L F P O A).
Qed.
Print Assumptions C101_stream.

(** the time stamps can be had from the first packet alone when it holds them *)
Theorem C101_first : forall id b6 pts dts f6 rest data b x l,
  let p := Timed id b6 pts dts f6 rest data in
  pes_ok p -> length_ok p b -> pieces_of (x :: l) (pes_bytes p b) -> (9 + length (stamps pts dts) <= length (e_data x))%nat ->
  is_prefix (e_data x) = Ok true /\ is_pts (e_data x) = Ok (match pts with Some _ => true | None => false end) /\
  is_dts (e_data x) = Ok (match dts with Some _ => true | None => false end) /\
  (forall v, pts = Some v -> get_pts (e_data x) = Ok v) /\ (forall v, dts = Some v -> get_dts (e_data x) = Ok v).
Proof. exact P_play.first_packet. Qed.
Print Assumptions C101_first.
Definition timed : pes := Timed 0xE0 5 (Some 0x123456789) (Some 8589934591) 0 [0xFF; 0xFF] [0; 0; 1; 9; 0x47; 7].
Definition af (n : nat) : option (list N) := Some (0x40 :: repeat 0xFF n).
(** it need not: a packet whose payload starts a PES packet can be too short, and the accessors abort *)
Theorem C101_first_refuted : exists x y, pes_ok timed /\ length_ok timed false /\ pieces_of [x; y] (pes_bytes timed false) /\
  is_prefix (e_data x) = Ok true /\ is_pts (e_data x) = Ok true /\ get_pts (e_data x) = Panic.
Proof.
  exists (mkPiece 0 3 (af 172) (firstn 10 (pes_bytes timed false))), (mkPiece 0 4 (af 165) (skipn 10 (pes_bytes timed false))).
  split. { repeat split; try (vm_compute; reflexivity); try (vm_compute; intuition discriminate); try discriminate; try (apply Facts.bytesb_iff; reflexivity); vm_compute; lia. }
  split; [right; reflexivity|].
  split; [|split; [|split]; vm_compute; reflexivity].
  split; [discriminate|]. split; [|vm_compute; reflexivity].
  constructor; [|constructor; [|constructor]]; (split; [vm_compute; reflexivity|split; apply Facts.bytesb_iff; vm_compute; reflexivity]).
Qed.
Print Assumptions C101_first_refuted.

(** time stamps of a clock that never wraps, less than a turn apart: the time between the first and the last, a tick short
    for each wrap between *)
Theorem C101_elapsed : forall m t l, onward t l -> exists d, elapsed m (t mod 2 ^ 33) (map (fun u => u mod 2 ^ 33) l) = Ok d /\
  d + (fix wraps t l := match l with [] => 0 | u :: l' => (if t / 2 ^ 33 =? u / 2 ^ 33 then 0 else 1) + wraps u l' end) t l = last l t - t.
Proof. intros m t l. exact (P_play.elapsed_all m l t). Qed.
Print Assumptions C101_elapsed.

(** any packets of 188 bytes: the player aborts exactly when a packet of its PID with payload has an adaptation field longer
    than the packet; without overflow checks a length of 251 and more wraps, and bytes of the header are taken for payload *)
Theorem C101_stops : forall m pid l cur, Forall (fun ts => length ts = 188%nat /\ bytes ts) l ->
  let stops ts := (field ts 11 13 =? pid) && flag ts 27 && flag ts 26 && (184 <=? field ts 32 8) &&
                  (match m with Debug => true | Release => field ts 32 8 <=? 250 end) in
  (existsb stops l = true -> collect m pid l cur = Panic) /\ (existsb stops l = false -> exists r, collect m pid l cur = Ok r).
Proof. intros m pid l cur F. exact (P_play.collect_stops m pid l F cur). Qed.
Print Assumptions C101_stops.
(** any 19 bytes and more as a PES packet: the fields of the header are read, and only cutting out the data can abort *)
Theorem C101_opens : forall m p, (19 <= length p)%nat -> bytes p ->
  let start := if existsb (N.eqb (field p 24 8)) no_optional_header then 6 else 9 + field p 64 8 in
  let size := field p 32 16 in
  let outside := (field p 0 24 =? 1) && (if size =? 0 then N.of_nat (length p) <? start else (6 + size <? start) || (N.of_nat (length p) <? 6 + size)) in
  (outside = true -> open m p = Panic) /\ (outside = false -> exists r, open m p = Ok r).
Proof. exact P_play.open_stops. Qed.
Print Assumptions C101_opens.
Example C101_ex_stops :
  let long n := ts_header 0x47 0 1 0 0x100 0 1 1 5 ++ n :: repeat 0 183 in
  (forall m, collect m 0x100 [long 183] None = Ok [[]]) /\ (forall m, collect m 0x100 [long 184] None = Panic) /\
  collect Debug 0x100 [long 255] None = Panic /\ collect Release 0x100 [long 255] None = Ok [255 :: repeat 0 183] /\
  (forall m, open m ([0; 0; 1; 0xE0; 0; 9; 0x80; 0; 7] ++ repeat 0 10) = Panic) /\
  (forall m, open m ([0; 0; 1; 0xE0; 0; 9; 0x80; 0; 6] ++ repeat 0 10) = Ok (Some (None, None, []))).
Proof.
  cbv zeta. split; [intros []; vm_compute; reflexivity|]. split; [intros []; vm_compute; reflexivity|].
  split; [vm_compute; reflexivity|]. split; [vm_compute; reflexivity|]. split; intros []; vm_compute; reflexivity.
Qed.

(** a picture in two pieces around packets of other PIDs and one without payload, then a piece of padding; joined before the end of another PES packet *)
Definition other : list N := ts_header 0x47 0 1 0 0x11 0 0 1 5 ++ repeat 0 184.
Definition no_payload : list N := ts_header 0x47 0 0 0 0x100 0 1 0 4 ++ 183 :: repeat 0 183.
Definition one := mkPiece 0 3 (af 172) (firstn 10 (pes_bytes timed false)).
Definition two := mkPiece 1 4 (af 165) (skipn 10 (pes_bytes timed false)).
Definition padding := mkPiece 0 5 (af 174) (pes_bytes (Plain 0xBE [0xFF; 0xFF]) true).
Definition before := mkPiece 0 2 None (repeat 9 184).
Definition stream : list (list N) :=
  [other; es_packet 0x100 0 before; es_packet 0x100 1 one; other; no_payload; es_packet 0x100 0 two; es_packet 0x100 1 padding; other].
Example C101_ex : Forall2 pieces_of [[one; two]; [padding]] (map (fun x => pes_bytes (fst x) (snd x)) [(timed, false); (Plain 0xBE [0xFF; 0xFF], true)]) /\
  among 0x100 (map (es_packet 0x100 0) [before] ++ concat (map (unit_packets 0x100) [[one; two]; [padding]])) stream /\
  Forall piece_ok [before; one; two; padding] /\ Forall is_packet stream /\
  (forall m, play m 0x100 stream = Ok [Some (Some 0x123456789, Some 8589934591, [0; 0; 1; 9; 0x47; 7]); Some (None, None, [0xFF; 0xFF])]) /\
  onward 8589934000 [8589934600; 8589935200] /\ (forall m, elapsed m 8589934000 [8; 608] = Ok 1199).
Proof.
  assert (O : Forall piece_ok [before; one; two; padding]).
  { repeat (constructor; [split; [vm_compute; reflexivity|split; apply Facts.bytesb_iff; vm_compute; reflexivity]|]). constructor. }
  split.
  { inversion O as [|? ? _ O1]; subst. inversion O1 as [|? ? P1 O2]; subst. inversion O2 as [|? ? P2 O3]; subst. inversion O3 as [|? ? P3 O4]; subst.
    constructor; [|constructor; [|constructor]].
    - split; [discriminate|]. split; [constructor; [exact P1|constructor; [exact P2|constructor]]|vm_compute; reflexivity].
    - split; [discriminate|]. split; [constructor; [exact P3|constructor]|vm_compute; reflexivity]. }
  assert (F1 : foreign 0x100 other). { split; [vm_compute; lia|]. split; [apply Facts.bytesb_iff; vm_compute; reflexivity|]. left. vm_compute. discriminate. }
  assert (F2 : foreign 0x100 no_payload). { split; [vm_compute; lia|]. split; [apply Facts.bytesb_iff; vm_compute; reflexivity|]. right. vm_compute. reflexivity. }
  split.
  { unfold stream. cbn [map unit_packets concat app].
    apply among_foreign; [exact F1|]. apply among_own. apply among_own. apply among_foreign; [exact F1|]. apply among_foreign; [exact F2|].
    apply among_own. apply among_own. apply among_foreign; [exact F1|]. apply among_nil. }
  split; [exact O|].
  split. { unfold stream. repeat (constructor; [split; vm_compute; reflexivity|]). constructor. }
  split; [intros []; vm_compute; reflexivity|].
  split; [vm_compute; repeat split; discriminate|intros []; vm_compute; reflexivity].
Qed.
