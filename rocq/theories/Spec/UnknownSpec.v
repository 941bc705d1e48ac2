(** Parameters that a class does not know. *)
From Coq Require Import List NArith Bool String.
From Verif Require Import Base.Ustr Model.Cls Model.Value Model.Pspec Model.Tables Model.Message Model.Env Model.Verify.
Import ListNotations.
Open Scope list_scope.

(** names that verify() of a class looks at although the class does not declare them *)
Definition also_read (c : cls) : list ustr :=
  match c with
  | C_oidc_AuthorizationResponse => [u "aud"]
  | C_oidc_AuthnToken => [u "nbf"]
  | C_oidc_JRD => [u "error_description"]
  | C_device_AccessTokenRequest => [u "device_code"]
  | C_session_LogoutToken => [u "nonce"]
  | C_ida_IDAClaimsRequest => [u "verified_claims"]
  | _ => []
  end.
(** a parameter that a class knows: declared, with or without a language tag, or looked at by verify() *)
Definition known (c : cls) (k : ustr) : bool :=
  dhas (cd_param (cdef c)) k || dhas (cd_param (cdef c)) (base_key k) || umem k (also_read c).

(** a value that a text can give to such a parameter, null apart *)
Definition ordinary (v : value) : Prop := v <> VNone /\ forall c d, v <> VMsg c d.
(** Two messages that differ at most in parameters outside [keep], which have ordinary values. *)
Definition agree_on (keep : ustr -> bool) (d1 d2 : dict value) : Prop :=
  (forall k, keep k = true -> dget d1 k = dget d2 k) /\
  (forall k v, keep k = false -> dget d1 k = Some v \/ dget d2 k = Some v -> ordinary v).

(** the payloads of the tokens that the crypto library parses are JSON: they hold no messages *)
Definition json_payloads (E : env) : Prop := forall t tok b, e_jws E t = Ok (Some tok) -> t_body tok = Ok b ->
  match b with
  | VDict l => forall k x, In (k, x) l -> forall c d, x <> VMsg c d
  | VMsg _ _ => False
  | _ => True
  end.

(** Outcomes of verify() of two instances of a class: the same parameters and values in [keep], and the same verdict or both
    an exception, the same one except for Evidence (whose verify() never returns, C80). *)
Definition same_outcome (c : cls) (keep : ustr -> bool) (r1 r2 : dict value * res bool) : Prop :=
  (forall k, keep k = true -> dget (fst r1) k = dget (fst r2) k) /\
  (forall b, snd r1 = Ok b <-> snd r2 = Ok b) /\
  (subclass c C_ida_Evidence = false -> snd r1 = snd r2).
(** Two texts or dictionaries that were read by an instance each: both are accepted or refused with the same exception, and
    verify() has the same outcome. *)
Definition same_reception (E : env) (K : kwargs) (hdr : option (dict value)) (c : cls) (r1 r2 : dict value * res unit) : Prop :=
  snd r1 = snd r2 /\ same_outcome c (known c) (verify E K hdr c (fst r1)) (verify E K hdr c (fst r2)).
