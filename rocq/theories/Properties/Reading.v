(** C99: reading a message ends. *)
From Coq Require Import List NArith ZArith Bool String.
From Verif Require Import Base.Ustr Model.Cls Model.Value Model.Pspec Model.Tables Model.Json Model.Message Proofs.FuelLemmas.
Import ListNotations.
Open Scope list_scope.

(** C99: no way of reading a message, from any text or value and for any class, runs out of the
    steps the model allows ... *)
Theorem C99_reading_ends : forall C,
  (forall kw, construct C kw <> Err OutOfFuel) /\
  (forall d v, snd (from_dict C d v) <> Err OutOfFuel) /\
  (forall d s, snd (from_json C d s) <> Err OutOfFuel) /\
  (forall d s, snd (from_urlencoded C d s) <> Err OutOfFuel) /\
  (forall d k v, snd (setitem C d k v) <> Err OutOfFuel).
Proof. exact reading_ends. Qed.
Print Assumptions C99_reading_ends.

(** ... and more of them change nothing. *)
Theorem C99_depth_enough : forall C n, (12 <= n)%nat ->
  (forall kw, construct_gen (lib_n n) C kw = construct C kw) /\
  (forall d v, from_dict_gen (lib_n n) (cd_param C) d v = from_dict C d v) /\
  (forall d s, from_json_gen (lib_n n) (cd_param C) d (VStr s) = from_json C d s) /\
  (forall d s, from_qs (lib_n n) (cd_param C) d s = from_urlencoded C d s).
Proof. exact depth_enough. Qed.
Print Assumptions C99_depth_enough.

Example C99_cases :
  json_loads (u "[[[[") = Err EJSONDecodeError /\
  snd (from_json (cdef C_oidc_JRD) [] (u "{""links"": [{""rel"": ""a"", ""href"": ""b""}]}")) = Ok tt /\
  snd (from_json (cdef C_oidc_JRD) [] (u "{""links"": [[[[")) = Err EJSONDecodeError.
Proof. vm_compute. auto. Qed.
