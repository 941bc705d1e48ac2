(** C157: texts read as numbers.  C158: texts read as durations. *)
From Coq Require Import List NArith ZArith Bool String.
From Verif Require Import Base.Ustr Model.Cls Model.Value Model.Pspec Model.Tables Model.Message Model.TimeUtil Spec.NumeralSpec Proofs.NumeralLemmas.
Import ListNotations.
Open Scope list_scope.
Open Scope N_scope.

(** C157: a text of ASCII characters is read as an integer if and only if it is one; ... *)
Theorem C157_int : forall s z, py_int_str s = Ok z <-> ascii s /\ int_text s z.
Proof. exact int_text_iff. Qed.
Print Assumptions C157_int.

Theorem C157_refused : forall s, ascii s -> (forall z, ~ int_text s z) -> py_int_str s = Err EValueError.
Proof. exact int_text_not. Qed.
Print Assumptions C157_refused.

(** ... the same for floating point numbers; ... *)
Theorem C157_float : forall s, ascii s -> (float_ok s = true <-> float_text s).
Proof. exact float_text_iff. Qed.
Print Assumptions C157_float.

(** ... a text assigned to an integer parameter, of whatever class, is stored as that integer or refused without a trace; ... *)
Theorem C157_param : forall c k sp d s, dget (cd_param (cdef c)) k = Some sp -> p_typ sp = TInt -> ascii s ->
  (forall z, int_text s z -> setitem (cdef c) d k (VStr s) = (dset d k (VInt z), Ok tt)) /\
  ((forall z, ~ int_text s z) -> setitem (cdef c) d k (VStr s) = (d, Err EValueError)).
Proof. exact int_param. Qed.
Print Assumptions C157_param.

(** ... and integers are written as texts that are read as those integers. *)
Theorem C157_written : forall z, int_text (dec_Z z) z.
Proof. exact int_written. Qed.
Print Assumptions C157_written.

Example C157_case : py_int_str (u " -1_000 ") = Ok (-1000)%Z /\ py_int_str (u "1__0") = Err EValueError /\ py_int_str (u "3.0") = Err EValueError /\
  float_ok (u "3.0e-2") = true /\ float_ok (u "3e") = false /\
  option_map p_typ (dget (cd_param (cdef C_oauth2_AccessTokenResponse)) (u "expires_in")) = Some TInt /\
  setitem (cdef C_oauth2_AccessTokenResponse) [] (u "expires_in") (VStr (u "+3_600")) = ([(u "expires_in", VInt 3600)], Ok tt) /\
  setitem (cdef C_oauth2_AccessTokenResponse) [] (u "expires_in") (VStr (u "1h")) = ([], Err EValueError).
Proof. vm_compute. repeat split. Qed.

(** C158: a text of ASCII characters is read as a duration if and only if it is one. *)
Theorem C158_reads : forall text pos d, ascii text -> (parse_duration text = Ok (pos, d) <-> reads_duration text pos d).
Proof. exact duration_iff. Qed.
Print Assumptions C158_reads.

(** hours and minutes without a date need the letters of a date in front; text behind the seconds is ignored *)
Example C158_case : parse_duration (u "-P1Y2M3DT4H5M6.7S") = Ok (false, mkDur 1 2 3 4 5 (DFlt (u "6.7"))) /\
  parse_duration (u "PT5M") = Err ETimeUtilError /\ parse_duration (u "P0MT5M") = Ok (true, mkDur 0 0 0 0 5 (DInt 0)) /\
  parse_duration (u "P1Y0MT1S and so on") = Ok (true, mkDur 1 0 0 0 0 (DInt 1)).
Proof. vm_compute. repeat split. Qed.
