(** C136 - C138: verify() at different times and with different skews. *)
From Coq Require Import List NArith ZArith QArith Bool String.
From Verif Require Import Base.Ustr Model.Cls Model.Value Model.Pspec Model.Tables Model.Message Model.Env
  Model.Verify Spec.MessageSpec Spec.VerifySpec Spec.ArgumentSpec Spec.ClockSpec Proofs.ClockLemmas Proofs.Samples.
Import ListNotations.
Open Scope list_scope.
Open Scope N_scope.

(** C136: the times at which a message is accepted are an interval, and the instance is the same afterwards. *)
Theorem C136_interval : forall E K hdr c d d1 d3 t1 t2 t3 s, arg_int K (u "skew") 0 s -> (t1 <= t2 <= t3)%Z ->
  verify (clock E t1) K hdr c d = (d1, Ok true) -> verify (clock E t3) K hdr c d = (d3, Ok true) ->
  d1 = d3 /\ verify (clock E t2) K hdr c d = (d1, Ok true).
Proof. exact c136. Qed.
Print Assumptions C136_interval.

(** With ID Tokens it has no beginning ... *)
Theorem C136_id_token : forall E K hdr c d d' t1 t2 s, arg_int K (u "skew") 0 s -> has_id_token c = true -> (t1 <= t2)%Z ->
  verify (clock E t2) K hdr c d = (d', Ok true) -> verify (clock E t1) K hdr c d = (d', Ok true).
Proof. exact c136_id. Qed.
Print Assumptions C136_id_token.

(** ... with logout tokens no end ... *)
Theorem C136_logout : forall E K hdr c d d' t1 t2 s, arg_int K (u "skew") 0 s -> has_logout_token c = true -> (t1 <= t2)%Z ->
  verify (clock E t1) K hdr c d = (d', Ok true) -> verify (clock E t2) K hdr c d = (d', Ok true).
Proof. exact c136_logout. Qed.
Print Assumptions C136_logout.

(** ... and without tokens the time makes no difference at all. *)
Theorem C136_timeless : forall E K hdr c d t1 t2, has_id_token c = false -> has_logout_token c = false -> is_jwt c = false ->
  verify (clock E t1) K hdr c d = verify (clock E t2) K hdr c d.
Proof. exact c136_none. Qed.
Print Assumptions C136_timeless.

Example C136_case :
  let response t := snd (verify (clock sample t) (with_jar []) None C_oidc_AccessTokenResponse (token_response "id.signed")) in
  let logout t := snd (verify (clock sample t) (with_jar []) None C_session_BackChannelLogoutRequest [(u "logout_token", VStr (u "lo.signed"))]) in
  let jwt t := snd (verify (clock sample t) (with_jar []) None C_oidc_JsonWebToken [(u "iat", VInt 900); (u "exp", VInt 2000)]) in
  has_id_token C_oidc_AccessTokenResponse = true /\ has_logout_token C_session_BackChannelLogoutRequest = true /\ is_jwt C_oidc_JsonWebToken = true /\
  response 0%Z = Ok true /\ response 1000%Z = Ok true /\ response 2000%Z = Ok true /\ response 2001%Z = Err EEXPError /\
  logout 899%Z = Err EValueError /\ logout 900%Z = Ok true /\ logout 90000%Z = Ok true /\
  jwt 899%Z = Err EEXPError /\ jwt 900%Z = Ok true /\ jwt 2000%Z = Ok true /\ jwt 2001%Z = Err EEXPError /\
  (has_id_token C_oidc_AuthorizationRequest || has_logout_token C_oidc_AuthorizationRequest || is_jwt C_oidc_AuthorizationRequest) = false /\
  snd (verify (clock sample 90000) (with_jar []) None C_oidc_AuthorizationRequest (dset request_claims (u "id_token_hint") (VStr (u "id.signed")))) = Ok true.
Proof. vm_compute. repeat split; reflexivity. Qed.

(** C137: to allow for a larger skew is to accept more, unless the message is a JWT with nbf (C40). *)
Theorem C137_larger : forall E K K' hdr c d d' s s', keys_skewless E -> kw_jar K = kw_jar K' -> same_but_skew K K' ->
  arg_int K (u "skew") 0 s -> arg_int K' (u "skew") 0 s' -> (s <= s')%Z -> (is_jwt c = true -> dget d (u "nbf") = None) ->
  verify E K hdr c d = (d', Ok true) -> verify E K' hdr c d = (d', Ok true).
Proof. exact c137. Qed.
Print Assumptions C137_larger.

(** With ID Tokens the skew amounts to a clock that is slow by it ... *)
Theorem C137_id_token : forall E t1 t2 K1 K2 hdr c d d' s1 s2, has_id_token c = true -> keys_skewless E -> kw_jar K1 = kw_jar K2 -> same_but_skew K1 K2 ->
  arg_int K1 (u "skew") 0 s1 -> arg_int K2 (u "skew") 0 s2 -> (t1 - s1 <= t2 - s2)%Z ->
  verify (clock E t2) K2 hdr c d = (d', Ok true) -> verify (clock E t1) K1 hdr c d = (d', Ok true).
Proof. exact c137_id. Qed.
Print Assumptions C137_id_token.

(** ... with logout tokens to one that is fast by it. *)
Theorem C137_logout : forall E t1 t2 K1 K2 hdr c d d' s1 s2, has_logout_token c = true -> keys_skewless E -> kw_jar K1 = kw_jar K2 -> same_but_skew K1 K2 ->
  arg_int K1 (u "skew") 0 s1 -> arg_int K2 (u "skew") 0 s2 -> (t2 + s2 <= t1 + s1)%Z ->
  verify (clock E t2) K2 hdr c d = (d', Ok true) -> verify (clock E t1) K1 hdr c d = (d', Ok true).
Proof. exact c137_logout. Qed.
Print Assumptions C137_logout.

(** Other messages do not depend on it. *)
Theorem C137_other : forall E K1 K2 hdr c d, has_id_token c = false -> has_logout_token c = false -> is_jwt c = false ->
  kw_jar K1 = kw_jar K2 -> same_but_skew K1 K2 -> verify E K1 hdr c d = verify E K2 hdr c d.
Proof. exact c137_none. Qed.
Print Assumptions C137_other.

Example C137_case :
  let K s := with_jar [(u "skew", VInt s)] in
  let response t s := snd (verify (clock sample t) (K s) None C_oidc_AccessTokenResponse (token_response "id.signed")) in
  let logout t s := snd (verify (clock sample t) (K s) None C_session_BackChannelLogoutRequest [(u "logout_token", VStr (u "lo.signed"))]) in
  keys_skewless sample /\ same_but_skew (K 5%Z) (K 10%Z) /\ arg_int (K 5%Z) (u "skew") 0 5 /\
  response 2005%Z 5%Z = Ok true /\ response 2010%Z 10%Z = Ok true /\ response 2006%Z 5%Z = Err EEXPError /\ response 2006%Z 10%Z = Ok true /\
  logout 895%Z 5%Z = Ok true /\ logout 890%Z 10%Z = Ok true /\ logout 894%Z 5%Z = Err EValueError.
Proof.
  cbv zeta. split; [intros i b tok a1 a2 _; reflexivity|]. split.
  { intros k Hk. unfold kget. cbn [kw with_jar dget]. destruct (ueqb k (u "skew")) eqn:Ek; [apply ueqb_eq in Ek; contradiction|reflexivity]. }
  split; [right; exists (VInt 5); split; reflexivity|]. vm_compute. repeat split; reflexivity.
Qed.

(** C138: nothing with an ID Token is accepted for ever ... *)
Theorem C138_expires : forall E K hdr c d d0 t0 s, arg_int K (u "skew") 0 s -> with_token c d -> verify (clock E t0) K hdr c d = (d0, Ok true) ->
  exists T, forall t d', (T < t)%Z -> verify (clock E t) K hdr c d <> (d', Ok true).
Proof. exact c138_id. Qed.
Print Assumptions C138_expires.

(** ... and no logout token has been acceptable since ever. *)
Theorem C138_begins : forall E K hdr c d d0 t0 s, arg_int K (u "skew") 0 s -> has_logout_token c = true -> verify (clock E t0) K hdr c d = (d0, Ok true) ->
  exists T, forall t d', (t < T)%Z -> verify (clock E t) K hdr c d <> (d', Ok true).
Proof. exact c138_logout. Qed.
Print Assumptions C138_begins.

Example C138_case :
  with_token C_oidc_AccessTokenResponse (token_response "id.signed") /\
  with_token C_session_EndSessionRequest [(u "id_token_hint", VStr (u "id.signed"))] /\
  snd (verify (clock sample 2000) (with_jar []) None C_session_EndSessionRequest [(u "id_token_hint", VStr (u "id.signed"))]) = Ok true /\
  snd (verify (clock sample 2001) (with_jar []) None C_session_EndSessionRequest [(u "id_token_hint", VStr (u "id.signed"))]) = Err EEXPError /\
  (** an id_token_hint of an authorization request is not checked for exp *)
  ~ with_token C_oidc_AuthorizationRequest (dset request_claims (u "id_token_hint") (VStr (u "id.signed"))).
Proof.
  split; [right; left; split; [left; reflexivity|discriminate]|]. split; [right; right; split; [reflexivity|discriminate]|].
  split; [vm_compute; reflexivity|]. split; [vm_compute; reflexivity|].
  intros [H|[[[H|[H|H]] _]|[H _]]]; vm_compute in H; discriminate.
Qed.
