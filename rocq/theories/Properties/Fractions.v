(** C172: skews that are fractions of a second. *)
From Coq Require Import List NArith ZArith QArith Qabs Bool String.
From Verif Require Import Base.Ustr Model.Cls Model.Value Model.Pspec Model.Tables Model.Message Model.Env
  Model.Verify Spec.MessageSpec Spec.VerifySpec Spec.ArgumentSpec Spec.ClockSpec Proofs.FractionLemmas Proofs.Samples.
Import ListNotations.
Open Scope list_scope.
Open Scope N_scope.

(** C172: with ID Tokens a skew, whole or not, amounts to a clock that is slow by it ... *)
Theorem C172_id_token : forall E t1 t2 K1 K2 hdr c d d' q1 q2, has_id_token c = true -> keys_skewless E -> kw_jar K1 = kw_jar K2 -> same_but_skew K1 K2 ->
  moderate (inject_Z t1) -> moderate (inject_Z t2) -> skew_is K1 q1 -> skew_is K2 q2 -> moderate q1 -> moderate q2 -> (inject_Z t1 - q1 <= inject_Z t2 - q2)%Q ->
  verify (clock E t2) K2 hdr c d = (d', Ok true) -> verify (clock E t1) K1 hdr c d = (d', Ok true).
Proof. exact c172_id. Qed.
Print Assumptions C172_id_token.

(** ... with logout tokens to one that is fast by it ... *)
Theorem C172_logout : forall E t1 t2 K1 K2 hdr c d d' q1 q2, has_logout_token c = true -> keys_skewless E -> kw_jar K1 = kw_jar K2 -> same_but_skew K1 K2 ->
  moderate (inject_Z t1) -> moderate (inject_Z t2) -> skew_is K1 q1 -> skew_is K2 q2 -> moderate q1 -> moderate q2 -> (inject_Z t2 + q2 <= inject_Z t1 + q1)%Q ->
  verify (clock E t2) K2 hdr c d = (d', Ok true) -> verify (clock E t1) K1 hdr c d = (d', Ok true).
Proof. exact c172_logout. Qed.
Print Assumptions C172_logout.

(** ... JWTs are accepted without interruption ... *)
Theorem C172_interval : forall E t1 t2 t3 K hdr c d q, is_jwt c = true -> (t1 <= t2 <= t3)%Z ->
  moderate (inject_Z t1) -> moderate (inject_Z t3) -> skew_is K q -> moderate q ->
  snd (verify (clock E t1) K hdr c d) = Ok true -> snd (verify (clock E t3) K hdr c d) = Ok true -> verify (clock E t2) K hdr c d = (d, Ok true).
Proof. exact c172_jwt. Qed.
Print Assumptions C172_interval.

(** ... and until exp and the skew have passed, by exact arithmetic. *)
Theorem C172_until : forall E t1 t2 K hdr c d q e, is_jwt c = true -> (t1 <= t2)%Z -> moderate (inject_Z t1) -> moderate (inject_Z t2) -> skew_is K q -> moderate q ->
  dget d (u "exp") = Some (VInt e) -> moderate (inject_Z e) -> (inject_Z t2 <= inject_Z e + q)%Q ->
  snd (verify (clock E t1) K hdr c d) = Ok true -> snd (verify (clock E t2) K hdr c d) = Ok true.
Proof. exact c172_until. Qed.
Print Assumptions C172_until.

(** A larger skew accepts more, unless the message is a JWT with nbf (C40). *)
Theorem C172_larger : forall E K K' hdr c d d' q q', keys_skewless E -> kw_jar K = kw_jar K' -> same_but_skew K K' ->
  moderate (inject_Z (e_now E)) -> skew_is K q -> skew_is K' q' -> moderate q -> moderate q' -> (q <= q')%Q -> (is_jwt c = true -> dget d (u "nbf") = None) ->
  verify E K hdr c d = (d', Ok true) -> verify E K' hdr c d = (d', Ok true).
Proof. exact c172_larger. Qed.
Print Assumptions C172_larger.

Example C172_case :
  let K s := with_jar [(u "skew", s)] in
  let response t s := snd (verify (clock sample t) (K s) None C_oidc_AccessTokenResponse (token_response "id.signed")) in
  let logout t s := snd (verify (clock sample t) (K s) None C_session_BackChannelLogoutRequest [(u "logout_token", VStr (u "lo.signed"))]) in
  let jwt t := snd (verify (clock sample t) (K (VFlt (3 # 2))) None C_oidc_JsonWebToken [(u "iat", VInt 900); (u "exp", VInt 2000)]) in
  skew_is (K (VFlt (1 # 2))) (1 # 2) /\ skew_is (K (VInt 1)) 1 /\ skew_is (with_jar []) 0 /\ moderate (inject_Z 2000) /\ moderate (3 # 2) /\
  response 2000%Z (VFlt (1 # 2)) = Ok true /\ response 2001%Z (VFlt (1 # 2)) = Err EEXPError /\ response 2001%Z (VFlt (3 # 2)) = Ok true /\ response 2001%Z (VInt 1) = Ok true /\
  logout 899%Z (VFlt (1 # 2)) = Err EValueError /\ logout 899%Z (VFlt (3 # 2)) = Ok true /\
  jwt 898%Z = Err EEXPError /\ jwt 899%Z = Ok true /\ jwt 2001%Z = Ok true /\ jwt 2002%Z = Err EEXPError.
Proof.
  cbv zeta. split; [exists (VFlt (1 # 2)); split; [right|]; reflexivity|]. split; [exists (VInt 1); split; [right|]; reflexivity|].
  split; [exists (VInt 0); split; [left; split|]; reflexivity|]. vm_compute. repeat split; reflexivity.
Qed.
