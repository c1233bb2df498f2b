(** Property theorems C72: the program tools/iso8859-parser.rs. Specification: S_iso. *)
From Coq Require Import String Ascii Permutation Sorted.
From Verif Require Import Prelude M_text M_textdata M_iso S_iso T_iso.
From Verif Require P_iso.

(** * C72 *)
(** for every mapping file the program prints the declaration of the table of its characters *)
Theorem C72_file : forall path part t os, file t os ->
  exists out, read_file path part t = Ok out /\ declares part (underscore (stem path)) os out.
Proof. exact P_iso.file_printed. Qed.
Print Assumptions C72_file.
(** for every directory of such files, in any order, the declarations come in the order of the parts; hidden files
    are left out *)
Theorem C72_main : forall files ss hidden, Forall good_source ss -> StronglySorted (fun a b => f_part a < f_part b) ss ->
  Forall (fun f => exists r, fst f = 46 :: r) hidden -> Permutation files (map (fun s => (file_name s, f_text s)) ss ++ hidden) ->
  exists outs, main files = Ok (concat outs) /\ Forall2 declared ss outs.
Proof. exact P_iso.main_prints. Qed.
Print Assumptions C72_main.
(** columns apart by two blanks abort the program *)
Theorem C72_two_blanks : forall path part w c a s s' r, Forall blank w -> hex c a -> 0xA0 <= a < 256 -> blank s -> blank s' -> ~ In 10 r ->
  (exists x, In x r /\ is_whitespace x = false) -> read_file path part (w ++ str "0x" ++ c ++ [s; s'] ++ r) = Panic.
Proof. exact P_iso.two_blanks. Qed.
Print Assumptions C72_two_blanks.
(** which numbers the columns may hold (behind the two characters that are skipped), and what separates columns *)
Theorem C72_number : forall limit s v, 0 < limit ->
  from_str_radix limit 16 s = Some v <-> exists d, (s = d \/ s = str "+" ++ d) /\ hex d v /\ v < limit.
Proof. exact P_iso.number_iff. Qed.
Print Assumptions C72_number.
Theorem C72_blank : forall c, is_whitespace c = true <->
  In c [9; 10; 11; 12; 13; 32; 0x85; 0xA0; 0x1680; 0x2000; 0x2001; 0x2002; 0x2003; 0x2004; 0x2005; 0x2006; 0x2007; 0x2008; 0x2009; 0x200A; 0x2028; 0x2029; 0x202F; 0x205F; 0x3000].
Proof. exact P_iso.blank_iff. Qed.
Print Assumptions C72_blank.
Example C72_ex_number : from_str_radix 256 16 (str "+aF") = Some 0xAF /\ from_str_radix 256 16 (str "100") = None /\ from_str_radix 256 16 (str "0ag") = None.
Proof. repeat split. Qed.

(** the tables of the library: a directory that says what the tables say, listed from behind *)
Definition hex_upper (k : nat) (n : N) : list N :=
  map (fun i => nth (N.to_nat (N.shiftr n (4 * N.of_nat i) mod 16)) (str "0123456789ABCDEF") 0) (rev (seq 0 k)).
Fixpoint mapping (code : N) (tab : list N) : list N :=
  match tab with
  | [] => []
  | u :: tab' => (if u =? 0 then [] else str "0x" ++ hex_upper 2 code ++ [9] ++ str "0x" ++ hex_upper 4 u ++ [9] ++ str "# NAME" ++ [10]) ++ mapping (code + 1) tab'
  end.
Definition directory : list (list N * list N) :=
  map (fun x => (str "8859-" ++ fst x ++ str ".TXT", str "# Name: ISO 8859" ++ [10; 10] ++ str "0x41" ++ [9] ++ str "0x0041" ++ [10] ++ mapping 0xA0 (snd x)))
    [(str "15", tab_ISO8859_15); (str "14", tab_ISO8859_14); (str "13", tab_ISO8859_13); (str "11", tab_ISO8859_11); (str "10", tab_ISO8859_10);
     (str "9", tab_ISO8859_9); (str "8", tab_ISO8859_8); (str "7", tab_ISO8859_7); (str "6", tab_ISO8859_6); (str "5", tab_ISO8859_5);
     (str "4", tab_ISO8859_4); (str "3", tab_ISO8859_3); (str "2", tab_ISO8859_2); (str "1", tab_ISO8859_1)].
Example C72_ex : main directory = Ok (str data_rs ++ [10]).
Proof. vm_compute. reflexivity. Qed.
Example C72_ex_file : file (str "# ISO" ++ [10] ++ str "0xA1" ++ [9] ++ str "0x00a1" ++ [9] ++ str "# INVERTED" ++ [13; 10]) [None; Some (0xA1, 0xA1)] /\
  character [None; Some (0xA1, 0xA1)] 0xA1 = 0xA1 /\ character [None; Some (0xA1, 0xA1)] 0xA2 = 0.
Proof.
  split; [|split; reflexivity]. apply (file_line (str "# ISO") None [10]); [apply (says_comment []); constructor|cbn; intuition discriminate|left; reflexivity|].
  apply (file_line (str "0xA1" ++ [9] ++ str "0x00a1" ++ [9] ++ str "# INVERTED") (Some (0xA1, 0xA1)) [13; 10] []);
    [|cbn; intuition discriminate|right; reflexivity|constructor].
  apply (says_pair [] (str "A1") 0xA1 9 (str "00a1") 0xA1 ([9] ++ str "# INVERTED")); [constructor| |reflexivity|right; reflexivity| |reflexivity|].
  - apply (hex_more [65] 49 10 1); [apply hex_one; right; reflexivity|left; reflexivity].
  - apply (hex_more [48; 48; 97] 49 10 1); [|left; reflexivity]. apply (hex_more [48; 48] 97 0 10); [|left; reflexivity].
    apply (hex_more [48] 48 0 0); [apply hex_one; left; reflexivity|left; reflexivity].
  - right. exists 9, (str "# INVERTED"). split; [right; reflexivity|reflexivity].
Qed.
