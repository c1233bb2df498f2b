(** Property theorems C112: readers on readers. Specification: S_reader.in_stream. *)
From Verif Require Import Prelude M_ts M_reader S_reader M_tower.
From Verif Require P_reader P_tower.

(** ** vocabulary of the statements *)
Definition ex_packet (x : N) : list N := [0x47; 0x1F; 0xF0; 0x10] ++ repeat x 184.
(** noise, a packet, a broken packet that a packet follows, a rest *)
Definition ex_source : source := mkSource ([1; 2; 3] ++ ex_packet 7 ++ [9; 9] ++ ex_packet 8 ++ [0x47; 5]) [Chunk 1; Chunk 0; Chunk 100].
(** no errors in the schedule of a source *)
Definition steady (s : source) : Prop := Forall (fun e => match e with Chunk _ => True | Fail _ => False end) (s_sched s).
(** [rd] is a Read that gives the bytes [R] says, some of them on each call until they are used up *)
Definition gives_bytes {S} (rd : S -> list N -> res (S * list N * io)) (R : S -> list N -> Prop) : Prop :=
  forall s l buf, R s l -> buf <> [] -> exists s' buf' n, rd s buf = Ok (s', buf', IoOk n) /\ length buf' = length buf /\ (n <= length buf)%nat /\
    (n = 0%nat -> l = []) /\ exists l', l = firstn n buf' ++ l' /\ R s' l'.

(** * C112 *)
(** The reader over any Read, on the sources of C56-C58, is the reader of those properties. *)
Theorem C112_source : forall s packet, ts_read_on src_rd (S (length (s_data s))) s packet = ts_read s packet.
Proof. exact P_tower.ts_read_on_source. Qed.
Print Assumptions C112_source.
(** Over any Read that gives bytes in pieces of any sizes, TsReader gives the packets of those bytes, then nothing: *)
Theorem C112_any : forall S (rd : S -> list N -> res (S * list N * io)) R, gives_bytes rd R -> forall n s l pks packet fuel,
  R s l -> in_stream l pks -> (length l < fuel)%nat -> (188 <= length packet)%nat ->
  exists s', read_all_on (ts_read_on rd fuel) n s packet = Ok (firstn n pks, s').
Proof.
  intros S rd R H n s l pks packet fuel HR I F L.
  apply (P_tower.read_all_on_delivers _ _ (P_tower.ts_read_on_any rd R H fuel)); [|exact L]. exists l. auto.
Qed.
Print Assumptions C112_any.
(** So readers and drains, stacked to any height on a source that gives its bytes in pieces of any sizes, give the packets the lowest reader finds, whatever the
    fresh buffers of the drains hold. *)
Theorem C112_tower : forall k fuel n s garbage packet pks, (forall i, length (garbage i) = 188%nat) -> (length (s_data s) < fuel)%nat -> steady s ->
  in_stream (s_data s) pks -> (188 <= length packet)%nat ->
  exists s', read_all_on (ts_read_on (tower fuel k) fuel) n (tower_new k s garbage) packet = Ok (firstn n pks, s').
Proof. intros k fuel n s garbage packet pks G F NF. exact (P_tower.tower_reads fuel k n s garbage packet pks G F NF). Qed.
Print Assumptions C112_tower.
(** The packets found, written one after another, are read back as they are: a second reader finds nothing else, and no byte is lost. *)
Theorem C112_again : forall l pks, in_stream l pks -> in_stream (concat pks) pks /\ length (concat pks) = (188 * length pks)%nat.
Proof.
  intros l pks I. destruct (P_tower.in_stream_packets l pks I) as [P _]. split; [exact (P_tower.aligned pks P)|].
  clear I. induction P as [|pk pks [L _] _ IH]; [reflexivity|]. cbn [concat]. rewrite app_length, IH, L. cbn [length]. rewrite (Nat.mul_succ_r 188). apply Nat.add_comm.
Qed.
Print Assumptions C112_again.
(** An error of the source, before it gave a byte, goes up through the readers and drains as it is; they keep nothing and lose nothing, so that by C112_tower the next
    reads give all packets. *)
Theorem C112_error : forall k fuel s e sched garbage buf, s_sched s = Fail e :: sched -> (forall i, length (garbage i) = 188%nat) -> (0 < fuel)%nat -> buf <> [] ->
  tower fuel k (tower_new k s garbage) buf = Ok (tower_new k (mkSource (s_data s) sched) garbage, buf, IoErr e).
Proof. intros k fuel s e sched garbage buf Sc G F. exact (P_tower.tower_error fuel s e sched garbage Sc G F k buf). Qed.
Print Assumptions C112_error.
(** A Read that breaks its contract and reports more bytes than it was asked for: TsReader panics, it hands out no packet. *)
Theorem C112_too_many : forall S (rd : S -> list N -> res (S * list N * io)) s s1 s2 packet t n fuel, (188 <= length packet)%nat ->
  rd s (firstn 1 packet) = Ok (s1, [0x47], IoOk 1) -> rd s1 (firstn 187 (skipn 1 packet)) = Ok (s2, t, IoOk n) -> (187 < n)%nat ->
  ts_read_on rd (Datatypes.S fuel) s packet = Panic.
Proof. exact @P_tower.too_many. Qed.
Print Assumptions C112_too_many.

(** A Read that never ends and never gives a sync byte: the first read does not return, whatever the number of rounds. *)
Theorem C112_endless : forall S (rd : S -> list N -> res (S * list N * io)), (forall s b, exists s' c n, rd s [b] = Ok (s', [c], IoOk n) /\ (0 < n)%nat /\ c <> 0x47) ->
  forall fuel s packet, (188 <= length packet)%nat -> ts_read_on rd fuel s packet = Hang.
Proof. exact @P_tower.endless. Qed.
Print Assumptions C112_endless.
(** for example one that gives zeros *)
Example C112_zeros : forall fuel, ts_read_on (fun (s : unit) buf => Ok (s, map (fun _ => 0) buf, IoOk (length buf))) fuel tt (repeat 0xFF 188) = Hang.
Proof. intros fuel. apply C112_endless; [|apply le_n]. intros s b. exists s, 0, 1%nat. split; [reflexivity|]. split; [lia|discriminate]. Qed.

(** towers of heights 0 to 3 find the two packets *)
Example C112_ex : in_stream (s_data ex_source) [ex_packet 7; ex_packet 8] /\
  forall k, In k [0; 1; 2; 3]%nat -> exists s', read_all_on (ts_read_on (tower 400 k) 400) 5 (tower_new k ex_source (fun i => repeat 0x47 188)) (repeat 0 188) = Ok ([ex_packet 7; ex_packet 8], s').
Proof.
  split.
  - apply (in_next _ (ex_packet 7) ([9; 9] ++ ex_packet 8 ++ [0x47; 5])); [reflexivity|reflexivity|].
    apply (in_next _ (ex_packet 8) [0x47; 5]); [reflexivity|reflexivity|]. constructor. apply Nat.ltb_lt. reflexivity.
  - intros k [<-|[<-|[<-|[<-|[]]]]]; eexists; vm_compute; reflexivity.
Qed.
