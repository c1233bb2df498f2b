(** The unit tests of /repo, replayed on the model by computation. Every Example is named
    after the test it replays and proves what the test asserts, in the Debug profile (the one
    `cargo test` builds). The tests are the only executable evidence about the code
    available here; that the model passes all of them is a check of the model, not a claim
    about the code beyond these inputs. The bit-macro test (src/bits.rs) and the tests that need
    std's io::copy are the ones with a comment below. *)
From Verif Require Import Prelude M_bytes M_ts M_pes M_crc M_utils M_text M_psi M_drive M_desc M_tables M_reader T_data.

(** comparison that leaves one bit to convert *)
Fixpoint eqb_list (a b : list N) : bool :=
  match a, b with
  | [], [] => true
  | x :: a', y :: b' => (x =? y) && eqb_list a' b'
  | _, _ => false
  end.
Definition is (r : res (list N)) (l : list N) : bool :=
  match r with Ok x => eqb_list x l | _ => false end.
(** what a table's demux appended to the empty vector *)
Definition sent (r : res (N * list N)) : res (list N) := ' (_, b) <- r ;; Ok b.
(** the slices the tests feed: data[0 ..], data[188 ..], ... *)
Fixpoint tails (n : nat) (l : list N) : list (list N) :=
  match n with O => [] | S n' => l :: tails n' (skipn 188 l) end.
Definition str (s : list N) (cp : N) : res dvb := dvb_from_str Debug s cp.

(** ** src/bytes.rs:66-118 *)
Example test_get_bytes_u16 : get_u16 [0x12; 0x34] = Ok 0x1234.
Proof. reflexivity. Qed.
Example test_set_bytes_u16 : set_u16 [0; 0] 0x1234 = Ok [0x12; 0x34].
Proof. reflexivity. Qed.
Example test_get_bytes_u24 : get_u24 [0x12; 0x34; 0xAB] = Ok 0x1234AB.
Proof. reflexivity. Qed.
Example test_set_bytes_u24 : set_u24 [0; 0; 0] 0x1234AB = Ok [0x12; 0x34; 0xAB].
Proof. reflexivity. Qed.
Example test_get_bytes_u32 : get_u32 [0x12; 0x34; 0xAB; 0xCD] = Ok 0x1234ABCD.
Proof. reflexivity. Qed.
Example test_set_bytes_u32 : set_u32 [0; 0; 0; 0] 0x1234ABCD = Ok [0x12; 0x34; 0xAB; 0xCD].
Proof. reflexivity. Qed.

(** ** src/ts/tests.rs *)
Example test_get_payload_offset :
  is_payload [0x47; 0x40; 0x11; 0x10; 0x00] = Ok true /\ get_payload_offset Debug [0x47; 0x40; 0x11; 0x10; 0x00] = Ok 4
  /\ is_payload [0x47; 0x40; 0x2d; 0xf0; 0x19; 0x00] = Ok true
  /\ get_payload_offset Debug [0x47; 0x40; 0x2d; 0xf0; 0x19; 0x00] = Ok (4 + 1 + 0x19).
Proof. repeat split. Qed.
Example test_set_payload_1 : set_payload_1 [0x47; 0; 0; 0] = Ok [0x47; 0; 0; 0x10].
Proof. reflexivity. Qed.
Example test_set_payload_0 : set_payload_0 [0x47; 0; 0; 0xFF] = Ok [0x47; 0; 0; 0xEF].
Proof. reflexivity. Qed.
Example test_set_pusi_1 : set_pusi_1 [0x47; 0] = Ok [0x47; 0x40].
Proof. reflexivity. Qed.
Example test_set_pusi_0 : set_pusi_0 [0x47; 0xFF] = Ok [0x47; 0xBF].
Proof. reflexivity. Qed.
Example test_set_pid : set_pid Debug [0x47; 0; 0] 8191 = Ok [0x47; 0x1F; 0xFF].
Proof. reflexivity. Qed.
Example test_is_pcr :
  is_pcr [0x47; 0x01; 0x00; 0x20; 0xb7; 0x10] = Ok true /\ is_pcr [0x47; 0x40; 0x11; 0x10; 0x00] = Ok false.
Proof. split; reflexivity. Qed.
Example test_pcr_delta : pcr_delta Debug (20000 - 10000) 20000 = Ok 10000.
Proof. reflexivity. Qed.
Example test_pcr_delta_overflow : pcr_delta Debug (PCR_MAX - 5000) 5000 = Ok 10000.
Proof. reflexivity. Qed.
Example test_get_pcr :
  let p := [0x47; 0x01; 0x00; 0x20; 0xB7; 0x10; 0x00; 0x02; 0x32; 0x89; 0x7E; 0xF7] in
  is_pcr p = Ok true /\ get_pcr Debug p = Ok 86405647.
Proof. split; reflexivity. Qed.
Example test_set_pcr :
  set_pcr [0x47; 0x01; 0x00; 0x20; 0xB7; 0x10; 0; 0; 0; 0; 0; 0] 86405647
  = Ok [0x47; 0x01; 0x00; 0x20; 0xB7; 0x10; 0x00; 0x02; 0x32; 0x89; 0x7E; 0xF7].
Proof. reflexivity. Qed.
(** the doc test of src/ts/pcr.rs:96-106 *)
Example doctest_pcr_to_stc :
  pcr_to_stc Debug 354924281094 7520 (354924281094 - 354923263808) 7708 = Ok 354925273568.
Proof. reflexivity. Qed.
(** the doc test of src/psi/utils/crc32.rs:60-64: "123456789" *)
Example doctest_crc32b : crc32b [49; 50; 51; 52; 53; 54; 55; 56; 57] = Ok 0x0376e6e7.
Proof. vm_compute. reflexivity. Qed.

(** ** tests/pes.rs *)
Example test_is_prefix : is_prefix T_PES_DATA = Ok true.
Proof. reflexivity. Qed.
Example test_get_pts :
  is_syntax_spec T_PES_DATA = Ok true /\ is_pts T_PES_DATA = Ok true /\ get_pts T_PES_DATA = Ok 225220.
Proof. repeat split. Qed.
Example test_get_dts :
  is_syntax_spec T_PES_DATA = Ok true /\ is_dts T_PES_DATA = Ok true /\ get_dts T_PES_DATA = Ok 222217.
Proof. repeat split. Qed.

(** ** tests/bcd.rs, tests/mjd.rs *)
Example test_from_bcd_u8 : u8_from_bcd Debug 0x12 = Ok 12.
Proof. reflexivity. Qed.
Example test_to_bcd_u8 : u8_to_bcd Debug 12 = Ok 0x12.
Proof. reflexivity. Qed.
Example test_from_bcd_u16 : u16_from_bcd Debug 0x1234 = Ok 1234.
Proof. reflexivity. Qed.
Example test_to_bcd_u16 : u8_to_bcd Debug 12 = Ok 0x12 /\ u16_to_bcd Debug 1234 = Ok 0x1234.
Proof. split; reflexivity. Qed.
Example test_from_bcd_u32 : u32_from_bcd Debug 0x12345678 = Ok 12345678.
Proof. reflexivity. Qed.
Example test_to_bcd_u32 : u32_to_bcd Debug 12345678 = Ok 0x12345678.
Proof. reflexivity. Qed.
Example test_u32_from_bcd_time : u32_from_bcd_time Debug 0x014530 = Ok (1 * 3600 + 45 * 60 + 30).
Proof. reflexivity. Qed.
Example test_u32_to_bcd_time : u32_to_bcd_time Debug (1 * 3600 + 45 * 60 + 30) = Ok 0x014530.
Proof. reflexivity. Qed.
(** these two tests use u32 values, in spite of their names *)
Example test_u16_from_bcd_time : u32_from_bcd_time Debug 0x0145 = Ok (1 * 60 + 45).
Proof. reflexivity. Qed.
Example test_u16_to_bcd_time : u32_to_bcd_time Debug (1 * 60 + 45) = Ok 0x0145.
Proof. reflexivity. Qed.
Example test_from_mjd : from_mjd Debug 0xc079 = Ok 750470400.
Proof. reflexivity. Qed.
Example test_to_mjd : to_mjd Debug 750470400 = Ok 0xc079.
Proof. reflexivity. Qed.

(** ** src/textcode/tests.rs *)
Definition size_of (s : list N) (cp : N) : res nat := t <- str s cp ;; Ok (dvb_size t).
Example test_size :
  size_of txt_hello 0 = Ok 5%nat /\ size_of txt_hello 1 = Ok 8%nat /\ size_of txt_privet 5 = Ok 7%nat
  /\ dvb_size dvb_default = 0%nat /\ size_of [] 5 = Ok 0%nat.
Proof. vm_compute. repeat split. Qed.
Definition as_bytes (s : list N) (cp : N) : res (list N) := t <- str s cp ;; Ok (t_data t).
Definition and_back (s : list N) (cp : N) : res (list N) := t <- str s cp ;; dvb_to_string t.
Example test_encode_iso6937 : as_bytes txt_hello_x 0 = Ok (utf8 txt_hello_x) /\ and_back txt_hello_x 0 = Ok txt_hello_x.
Proof. vm_compute. repeat split. Qed.
Example test_encode_iso8859 : as_bytes txt_privet_x 5 = Ok [0xbf; 0xe0; 0xd8; 0xd2; 0xd5; 0xe2; 0x21].
Proof. vm_compute. reflexivity. Qed.
Example test_encode_utf8 : as_bytes txt_privet_x UTF8 = Ok (utf8 txt_privet_x).
Proof. vm_compute. reflexivity. Qed.
Definition read_text (e : list N) : res (N * list N) := t <- dvb_from Debug e ;; s <- dvb_to_string t ;; Ok (t_cp t, s).
Example test_decode_iso6937 : read_text (utf8 txt_hello_x) = Ok (0, lossy (utf8 txt_hello_x)).
Proof. vm_compute. reflexivity. Qed.
Example test_decode_iso8859 :
  read_text [0x10; 0x00; 0x05; 0xbf; 0xe0; 0xd8; 0xd2; 0xd5; 0xe2; 0x21] = Ok (5, txt_privet_x).
Proof. vm_compute. reflexivity. Qed.
Example test_truncate : (t <- str txt_hello_w UTF8 ;; t <- dvb_truncate t (5 + 3) ;; dvb_to_string t) = Ok txt_hello_d.
Proof. vm_compute. reflexivity. Qed.

(** ** src/psi/descriptors/x*.rs *)
Definition put (d : res desc) : res (list N) := d <- d ;; ' (b, _) <- descs_assemble Debug [d] [] ;; Ok b.
Definition got (l : list N) (d : res desc) : Prop := exists x, d = Ok x /\ descs_parse Debug [] l = Ok [x].
Ltac found := eexists; split; vm_compute; reflexivity.

Definition v09 : res desc := Ok (D09 (mk09 2403 1281 [])).
Example test_09_parse : got T_DATA_09 v09. Proof. found. Qed.
Example test_09_assemble : put v09 = Ok T_DATA_09. Proof. vm_compute. reflexivity. Qed.
Definition v0A : res desc := t <- str txt_eng 0 ;; Ok (D0A [mk0Ai t 1]).
Example test_0a_parse : got T_DATA_0A v0A. Proof. found. Qed.
Example test_0a_assemble : put v0A = Ok T_DATA_0A. Proof. vm_compute. reflexivity. Qed.
Definition v0E : res desc := Ok (D0E (mk0E 77500)).
Example test_0e_parse : got T_DATA_0E v0E. Proof. found. Qed.
Example test_0e_assemble : put v0E = Ok T_DATA_0E. Proof. vm_compute. reflexivity. Qed.
Definition v40 : res desc := t <- str txt_cesbo 5 ;; Ok (D40 t).
Example test_40_parse : got T_DATA_40 v40. Proof. found. Qed.
Example test_40_assemble : put v40 = Ok T_DATA_40. Proof. vm_compute. reflexivity. Qed.
Definition v41 : res desc := Ok (D41 [mk41i 8581 1; mk41i 8582 1]).
Example test_41_parse : got T_DATA_41 v41. Proof. found. Qed.
Example test_41_assemble : put v41 = Ok T_DATA_41. Proof. vm_compute. reflexivity. Qed.
(** constants.rs:9, 12, 28, 43 *)
Definition v43 : res desc := Ok (D43 (mk43 12380000 780 1 1 0 0 1 27500 3)).
Example test_43_parse : got T_DATA_43 v43. Proof. found. Qed.
Example test_43_assemble : put v43 = Ok T_DATA_43. Proof. vm_compute. reflexivity. Qed.
(** constants.rs:36, 25, 40 *)
Definition v44 : res desc := Ok (D44 (mk44 346000000 0 5 6875 0)).
Example test_44_parse : got T_DATA_44 v44. Proof. found. Qed.
Example test_44_assemble : put v44 = Ok T_DATA_44. Proof. vm_compute. reflexivity. Qed.
Definition v4D : res desc :=
  l <- str txt_rus 0 ;; n <- str txt_strojka 5 ;; Ok (D4D (mk4D l n dvb_default)).
(** the test reads the fields; the name compares equal, the empty text is only asked is_empty *)
Example test_4d_parse : got T_DATA_4D v4D /\ (exists d, v4D = Ok d /\ desc_size d = length T_DATA_4D).
Proof. split; found. Qed.
Example test_4d_assemble : put v4D = Ok T_DATA_4D. Proof. vm_compute. reflexivity. Qed.
Definition v4E : res desc :=
  l <- str txt_rus 0 ;; t <- str txt_zima 5 ;; Ok (D4E (mk4E 0 0 l [] t)).
Example test_4e_parse : got T_DATA_4E v4E /\ (exists d, v4E = Ok d /\ desc_size d = length T_DATA_4E).
Proof. split; found. Qed.
Example test_4e_assemble : put v4E = Ok T_DATA_4E. Proof. vm_compute. reflexivity. Qed.
Definition v52 : res desc := Ok (D52 2).
Example test_52_parse : got T_DATA_52 v52. Proof. found. Qed.
Example test_52_assemble : put v52 = Ok T_DATA_52. Proof. vm_compute. reflexivity. Qed.
Definition v58 : res desc :=
  a <- str txt_gbr 0 ;; b <- str txt_irl 0 ;;
  Ok (D58 [mk58i a 0 0 0 1332637199 60; mk58i b 0 0 0 1332637199 60]).
Example test_58_parse : got T_DATA_58 v58. Proof. found. Qed.
Example test_58_assemble : put v58 = Ok T_DATA_58. Proof. vm_compute. reflexivity. Qed.
(** constants.rs:52, 34, 57, 67, 75, 78 *)
Definition v5A : res desc := Ok (D5A (mk5A 500000000 0 1 1 1 2 0 1 0 3 1 0)).
Example test_5a_parse : got T_DATA_5A v5A. Proof. found. Qed.
Example test_5a_assemble : put v5A = Ok T_DATA_5A. Proof. vm_compute. reflexivity. Qed.
Definition v83 : res desc := Ok (D83 [mk83i 8581 1 25; mk83i 8582 1 43]).
Example test_83_parse : got T_DATA_83 v83. Proof. found. Qed.
Example test_83_assemble : put v83 = Ok T_DATA_83. Proof. vm_compute. reflexivity. Qed.

(** ** tests/psi.rs *)
Definition checked (p : res psi) : res bool := p <- p ;; psi_check p.
Example test_parse_ts_single : checked (psi_mux Debug psi_default T_PAT) = Ok true.
Proof. vm_compute. reflexivity. Qed.
Example test_parse_ts_multi : checked (mux_all Debug psi_default (tails 2 T_SDT)) = Ok true.
Proof. vm_compute. reflexivity. Qed.
Example test_parse_ts_two_psi :
  (p <- psi_mux Debug psi_default T_TWO_PSI ;; c1 <- psi_check p ;;
   p <- psi_mux Debug p (skipn 188 T_TWO_PSI) ;; c2 <- psi_check p ;; b2 <- get (p_buffer p) 0 ;;
   p <- psi_mux Debug p (skipn 188 T_TWO_PSI) ;; c3 <- psi_check p ;; b3 <- get (p_buffer p) 0 ;;
   Ok (c1, c2, b2, c3, b3)) = Ok (false, true, 0x70, true, 0x70).
Proof. vm_compute. reflexivity. Qed.
Example test_small_header_psi : checked (mux_all Debug psi_default (tails 2 T_SMALL_HEADER_PSI)) = Ok true.
Proof. vm_compute. reflexivity. Qed.
Example test_psi_init :
  (p <- psi_new Debug 0 8 1 ;;
   b <- set (p_buffer p) 4 1 ;;
   p <- psi_finalize (with_buffer p (b ++ [
        0x00; 0x00; 0xe0; 0x10; 0x00; 0x01; 0xe4; 0x07; 0x00; 0x02; 0xe4; 0x08; 0x00; 0x03; 0xe4; 0x09;
        0x00; 0x04; 0xe4; 0x0a; 0x00; 0x05; 0xe4; 0x0b; 0x00; 0x06; 0xe4; 0x0c])) ;;
   Ok (p_buffer p)) = slice T_PAT 5 45.
Proof. vm_compute. reflexivity. Qed.
Definition eit50 : list N := skipn (7 * 188) T_EIT_50.
Example test_psi_demux :
  (p <- mux_all Debug psi_default (tails 3 eit50) ;; c <- psi_check p ;;
   ' (_, ts) <- psi_demux Debug (with_pid (with_cc p 11) 0x12) [] ;;
   Ok (c && eqb_list ts eit50)) = Ok true.
Proof. vm_compute. reflexivity. Qed.

(** ** tests/pat.rs *)
Definition v_pat : pat := mkPat 1 1 [mkPatI 0 16; mkPatI 1 1031; mkPatI 2 1032; mkPatI 3 1033;
                                     mkPatI 4 1034; mkPatI 5 1035; mkPatI 6 1036].
Example test_parse_pat : (p <- psi_mux Debug psi_default T_PAT ;; pat_parse Debug pat_default p) = Ok v_pat.
Proof. vm_compute. reflexivity. Qed.
Example test_assemble_pat : is (sent (pat_demux Debug v_pat 0 0 [])) T_PAT = true.
Proof. vm_compute. reflexivity. Qed.

(** ** tests/pmt.rs *)
Definition v_pmt : res pmt :=
  t <- str txt_eng 0 ;;
  Ok (mkPmt 1 50455 2318 [] [
    mkPmtI 2 2318 [D0E (mk0E 77500); D09 (mk09 2403 1281 []); D52 1];
    mkPmtI 4 2319 [D0E (mk0E 77500); D0A [mk0Ai t 1]; D52 2]]).
Example test_parse_pmt : (p <- psi_mux Debug psi_default T_PMT ;; pmt_parse Debug pmt_default p) = v_pmt.
Proof. vm_compute. reflexivity. Qed.
Example test_assemble_pmt : is (sent (t <- v_pmt ;; pmt_demux Debug t 278 0 [])) T_PMT = true.
Proof. vm_compute. reflexivity. Qed.
Example test_pmt_get_stream_type :
  (p <- psi_mux Debug psi_default T_PMT ;; t <- pmt_parse Debug pmt_default p ;;
   Ok (map get_stream_type (pmt_items t))) = Ok [VIDEO; AUDIO].
Proof. vm_compute. reflexivity. Qed.

(** ** tests/sdt.rs *)
Fixpoint v_sdt_items (l : list (N * N * list N)) : res (list sdt_item) :=
  match l with
  | [] => Ok []
  | (pnr, ty, name) :: l' =>
    pr <- str txt_avalpa 0 ;; n <- str name 0 ;; r <- v_sdt_items l' ;;
    Ok (mkSdtI pnr 0 1 4 0 [D48 (mk48 ty pr n)] :: r)
  end.
Definition v_sdt : res sdt := i <- v_sdt_items T_SDT_DATA ;; Ok (mkSdt 0x42 1 1 1 i).
Example test_parse_sdt :
  (p <- mux_all Debug psi_default (tails 2 T_SDT) ;; sdt_parse Debug sdt_default p) = v_sdt.
Proof. vm_compute. reflexivity. Qed.
Example test_assemble_sdt : is (sent (t <- v_sdt ;; sdt_demux Debug t 0x11 10 [])) T_SDT = true.
Proof. vm_compute. reflexivity. Qed.

(** ** tests/nit.rs *)
Definition sat (a b c d e f : N) : desc :=
  DRaw (mkRaw 0x43 [0x01; a; b; c; 0x01; 0x30; d; 0x02; e; f; 0x03]).
Definition v_nit : nit := mkNit 64 11 85 [] [
  mkNitI 8400 318 [sat 0x23 0x80 0x00 0xa1 0x75 0x00; DRaw (mkRaw 0x83 [0x0b; 0xc6; 0xc0; 0x2d])];
  mkNitI 12600 318 [sat 0x10 0x34 0x00 0xa1 0x75 0x00];
  mkNitI 700 318 [sat 0x13 0x17 0x00 0xa1 0x75 0x00];
  mkNitI 8900 318 [sat 0x24 0x76 0x00 0x86 0x99 0x00];
  mkNitI 9400 318 [sat 0x25 0x97 0x00 0xa1 0x75 0x00];
  mkNitI 15600 318 [sat 0x16 0x23 0x00 0xa1 0x75 0x00]].
Example test_parse_nit :
  (p <- psi_mux Debug psi_default T_NIT_DVBS ;; t <- nit_parse Debug nit_default p ;;
   Ok (nit_table t, nit_version t, nit_network t, length (nit_descs t),
       map (fun i => (niti_tsid i, niti_onid i, length (niti_descs i))) (nit_items t)))
  = Ok (64, 11, 85, 0%nat,
        [(8400, 318, 2%nat); (12600, 318, 1%nat); (700, 318, 1%nat); (8900, 318, 1%nat); (9400, 318, 1%nat);
         (15600, 318, 1%nat)]).
Proof. vm_compute. reflexivity. Qed.
Example test_assemble_nit : is (sent (nit_demux Debug v_nit 0x10 15 [])) T_NIT_DVBS = true.
Proof. vm_compute. reflexivity. Qed.

(** ** tests/eit.rs *)
Definition v_4e : res eit :=
  l <- str txt_ita 0 ;; n <- str txt_4e_name 0 ;; t <- str txt_4e_text 0 ;;
  Ok (mkEit 0x4E 1 6 1 1 [mkEitI 1 1296432000 72000 4 0 [D4D (mk4D l n t)]]).
Example test_parse_eit_4e : (p <- psi_mux Debug psi_default T_EIT_4E ;; eit_parse Debug eit_default p) = v_4e.
Proof. vm_compute. reflexivity. Qed.
Example test_assemble_eit_4e : is (sent (t <- v_4e ;; eit_demux Debug t 0x12 0 [])) T_EIT_4E = true.
Proof. vm_compute. reflexivity. Qed.
Definition v_50 : res eit :=
  l <- str txt_pol 0 ;; n <- str txt_50_name 2 ;; e <- str [] 2 ;; t1 <- str txt_50_text1 2 ;; t2 <- str txt_50_text2 2 ;;
  Ok (mkEit 0x50 21 7375 7400 1 [mkEitI 31948 1534183800 1800 0 1 [
    D4D (mk4D l n e); D4E (mk4E 0 1 l [] t1); D4E (mk4E 1 1 l [] t2); DRaw (mkRaw 0x55 [80; 76; 32; 9])]]).
Example test_parse_eit_50 :
  (p <- mux_all Debug psi_default (tails 3 eit50) ;; c <- psi_check p ;; t <- eit_parse Debug eit_default p ;;
   Ok (c, eit_version t, eit_pnr t, eit_tsid t, eit_onid t,
       map (fun i => (eiti_id i, eiti_start i, eiti_duration i, eiti_status i, eiti_ca i, length (eiti_descs i))) (eit_items t)))
  = Ok (true, 21, 7375, 7400, 1, [(31948, 1534183800, 1800, 0, 1, 4%nat)]).
Proof. vm_compute. reflexivity. Qed.
Example test_assemble_eit_50 : is (sent (t <- v_50 ;; eit_demux Debug t 0x12 4 [])) T_EIT_50 = true.
Proof. vm_compute. reflexivity. Qed.

(** ** tests/tdt.rs, tests/tot.rs *)
Example test_parse_tdt : (p <- psi_mux Debug psi_default T_TDT ;; tdt_parse Debug 0 p) = Ok 1547057412.
Proof. vm_compute. reflexivity. Qed.
Example test_assemble_tdt : is (sent (tdt_demux Debug 1547057412 0x14 3 [])) T_TDT = true.
Proof. vm_compute. reflexivity. Qed.
Example test_parse_tot :
  (p <- psi_mux Debug psi_default T_TOT ;; t <- tot_parse Debug tot_default p ;; Ok (tot_time t)) = Ok 1547057412.
Proof. vm_compute. reflexivity. Qed.
Definition v_tot : tot :=
  mkTot 1547057412 [DRaw (mkRaw 0x9a [0xe4; 0xb8; 0x02; 0x00; 0x00; 0xe5; 0xa6; 0x02; 0x00; 0x00])].
Example test_assemble_tot : is (sent (tot_demux Debug v_tot 0x14 4 [])) T_TOT = true.
Proof. vm_compute. reflexivity. Qed.

(** ** tests/reader.rs: the source is a BufReader over the bytes of PAT, PMT and SDT. One
    schedule of deliveries is replayed here (as much as is asked for); C56-C59 are about all. *)
Definition v_bytes : list N := T_PAT ++ T_PMT ++ T_SDT.
Definition v_src : source := mkSource v_bytes [].
Example test_reader :
  (' (l, _) <- read_all 10 v_src (repeat 0 188) ;; Ok (length (concat l) =? length v_bytes)%nat) = Ok true.
Proof. vm_compute. reflexivity. Qed.
(** io::copy reads into its own buffer of 8 KiB until a read returns 0; any buffer of 188 bytes or
    more gives the same reads *)
Example test_drain :
  (' (l, _) <- drain_all ts_read (drain_new v_src (repeat 0 188)) (repeat (repeat 0 200) 10) ;;
   Ok (eqb_list (concat l) v_bytes)) = Ok true.
Proof. vm_compute. reflexivity. Qed.
Example test_drain_step :
  (' (l, _) <- drain_all ts_read (drain_new v_src (repeat 7 188)) (repeat (repeat 0 32) 40) ;;
   Ok (eqb_list (concat l) v_bytes)) = Ok true.
Proof. vm_compute. reflexivity. Qed.
