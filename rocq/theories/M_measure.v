(** Driver (not code of /repo): measuring the jitter of the clock references of a program as the
    comment of pcr_to_stc describes it (src/ts/pcr.rs:73-106): of three consecutive PCR values a, b, c and the bytes
    between them, pcr_delta(a, b) and pcr_to_stc give the expected value of c, pcr_jitter_ns the deviation.
    [l] are the PCR values behind b, each with the bytes since the one before; [nb] are the bytes
    between a and b. *)
From Verif Require Import Prelude M_ts.

Fixpoint measure (m : mode) (a b nb : N) (l : list (N * N)) : res (list Z) :=
  match l with
  | [] => Ok []
  | (c, nc) :: l' =>
    delta <- pcr_delta m a b ;;
    stc <- pcr_to_stc m b nc delta nb ;;
    j <- pcr_jitter_ns m c stc ;;
    r <- measure m b c nc l' ;;
    Ok (j :: r)
  end.
