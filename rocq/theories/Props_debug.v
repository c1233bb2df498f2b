(** Property theorems C60: the Debug views of a packet. Specification: S_debug. *)
From Coq Require Import String.
From Verif Require Import Prelude Layout S_debug M_ts M_debug.
From Verif Require P_debug.
Local Open Scope string_scope.

(** ** vocabulary of the statements *)
(** long enough: the constructors assert a full packet in debug builds, the code itself needs 12 bytes *)
Definition shown_length (m : mode) : nat := match m with Debug => 188 | Release => 12 end.
(** everything the view shows of the header and of the adaptation field *)
Definition same_fields (ts ts' : list N) : Prop :=
  (field ts 0 8 =? 0x47)%N = (field ts' 0 8 =? 0x47)%N /\ field ts 8 1 = field ts' 8 1 /\ flag ts 9 = flag ts' 9 /\
  field ts 11 13 = field ts' 11 13 /\ field ts 24 2 = field ts' 24 2 /\ flag ts 26 = flag ts' 26 /\
  flag ts 27 = flag ts' 27 /\ field ts 28 4 = field ts' 28 4.
Definition same_adaptation (ts ts' : list N) : Prop :=
  field ts 32 8 = field ts' 32 8 /\
  (field ts 32 8 <> 0 ->
   flag ts 40 = flag ts' 40 /\ flag ts 41 = flag ts' 41 /\ flag ts 42 = flag ts' 42 /\ flag ts 43 = flag ts' 43 /\
   flag ts 44 = flag ts' 44 /\ flag ts 45 = flag ts' 45 /\ flag ts 46 = flag ts' 46 /\ flag ts 47 = flag ts' 47 /\
   (flag ts 43 = true -> (field ts 48 33 * 300 + field ts 87 9 = field ts' 48 33 * 300 + field ts' 87 9)%N)).

(** * C60 *)
(** the number format of the views *)
Theorem C60_numeral : forall n, numeral (dec n) n.
Proof. exact P_debug.dec_numeral. Qed.
Print Assumptions C60_numeral.
Theorem C60_text : forall m ts, (shown_length m <= length ts)%nat -> bytes ts ->
  packet_text m false ts = Ok (packet_line dec ts) /\ packet_text m true ts = Ok (packet_lines dec ts).
Proof. exact P_debug.text_spec. Qed.
Print Assumptions C60_text.
Theorem C60_adaptation : forall m ts, (shown_length m <= length ts)%nat -> bytes ts ->
  adaptation_text m false ts = Ok (adaptation_line dec ts).
Proof. exact P_debug.adaptation_text_spec. Qed.
Print Assumptions C60_adaptation.
(** with debug assertions anything shorter than a packet is refused; without, an index
    check stops the view of fewer than 4 bytes *)
Theorem C60_short : forall alt ts, ((length ts < 188)%nat -> packet_text Debug alt ts = Panic /\ adaptation_text Debug alt ts = Panic) /\
  ((length ts < 4)%nat -> packet_text Release alt ts = Panic /\ adaptation_text Release alt ts = Panic).
Proof. exact P_debug.text_short. Qed.
Print Assumptions C60_short.
(** nothing shown is ambiguous: equal texts mean equal fields *)
Theorem C60_readable : forall m ts ts', (shown_length m <= length ts)%nat -> (shown_length m <= length ts')%nat -> bytes ts -> bytes ts' ->
  packet_text m false ts = packet_text m false ts' -> same_fields ts ts' /\ (flag ts 26 = true -> same_adaptation ts ts').
Proof.
  intros m ts ts' L L' B B' H. rewrite (proj1 (C60_text m ts L B)), (proj1 (C60_text m ts' L' B')) in H. 
  apply (f_equal (fun r => match r with Ok s => s | _ => "" end)) in H. cbv beta iota in H.
  exact (P_debug.line_inj ts ts' H).
Qed.
Print Assumptions C60_readable.
(** but not everything is shown: the transport priority is not *)
Theorem C60_complete_refuted : exists ts ts', length ts = 188%nat /\ length ts' = 188%nat /\ bytes ts /\ bytes ts' /\
  packet_text Debug false ts = packet_text Debug false ts' /\ flag ts 10 <> flag ts' 10.
Proof.
  exists (0x47 :: 0x40 :: 0 :: 0x10 :: repeat 255 184)%list, (0x47 :: 0x60 :: 0 :: 0x10 :: repeat 255 184)%list.
  split; [reflexivity|]. split; [reflexivity|]. split; [|split; [|split; [vm_compute; reflexivity|discriminate]]].
  all: repeat (apply Forall_cons; [reflexivity|]); constructor.
Qed.
Print Assumptions C60_complete_refuted.
(** and a PCR is shown where is_pcr says there is none (adaptation length below 7) *)
Theorem C60_pcr_refuted : exists ts, length ts = 188%nat /\ bytes ts /\ is_pcr ts = Ok false /\
  adaptation_text Debug false ts = Ok "TsAdaptation { length: 1, discontinuity: false, random_access: false, es_priority: false, PCR_flag: true, OPCR_flag: false, splicing_point: false, private_data: false, af_extension: false, pcr: 2576980377811 }".
Proof.
  exists (0x47 :: 0x40 :: 0 :: 0x30 :: 1 :: 0x10 :: repeat 255 182)%list. split; [reflexivity|]. split; [|split; vm_compute; reflexivity].
  repeat (apply Forall_cons; [reflexivity|]). constructor.
Qed.
Print Assumptions C60_pcr_refuted.
Definition ex_shown : list N := (0x47 :: 0x41 :: 0x23 :: 0xBF :: 7 :: 0x50 :: 0 :: 0 :: 0 :: 1 :: 0x7E :: 5 :: repeat 255 176)%list.
Example C60_ex : packet_text Debug false ex_shown = Ok
  "TsPacket { sync: true, error: 0, pusi: true, pid: 291, scrambling: 2, adaptation: TsAdaptation { length: 7, discontinuity: false, random_access: true, es_priority: false, PCR_flag: true, OPCR_flag: false, splicing_point: false, private_data: false, af_extension: false, pcr: 605 }, payload: true, cc: 15 }"
  /\ exists s, packet_text Debug true ex_shown = Ok s /\ s =
"TsPacket {
    sync: true,
    error: 0,
    pusi: true,
    pid: 291,
    scrambling: 2,
    adaptation: TsAdaptation {
        length: 7,
        discontinuity: false,
        random_access: true,
        es_priority: false,
        PCR_flag: true,
        OPCR_flag: false,
        splicing_point: false,
        private_data: false,
        af_extension: false,
        pcr: 605,
    },
    payload: true,
    cc: 15,
}".
Proof. split; [vm_compute; reflexivity|]. eexists. split; [vm_compute; reflexivity|reflexivity]. Qed.
