(** Cases for C132-C135. *)
From Coq Require Import List NArith ZArith Bool String.
From Verif Require Import Base.Ustr Model.Cls Model.Value Model.Pspec Model.Tables Model.Message Model.Json
  Spec.JsonSpec Spec.MessageSpec Spec.CodecSpec Spec.VerifySpec Spec.RoundTripSpec Spec.WireSpec Spec.RequiredSpec Spec.ProtocolSpec.
Import ListNotations.
Open Scope list_scope.
Open Scope N_scope.

Definition pr_request_text : ustr :=
  u "{""client_id"": ""s6BhdRkqt3"", ""response_type"": ""code id_token"", ""scope"": ""openid email"", ""max_age"": 10000, ""prompt"": ""login consent""}".
Definition pr_request : list member :=
  [(u "client_id", VStr (u "s6BhdRkqt3"), VStr (u "s6BhdRkqt3"));
   (u "response_type", VStr (u "code id_token"), VList [VStr (u "code"); VStr (u "id_token")]);
   (u "scope", VStr (u "openid email"), VList [VStr (u "openid"); VStr (u "email")]);
   (u "max_age", VInt 10000, VInt 10000);
   (u "prompt", VStr (u "login consent"), VList [VStr (u "login"); VStr (u "consent")])].

Lemma words_value : forall l w, w = words l -> forallb scalars l = true -> forallb (forallb (fun x => negb (x =? 32))) l = true -> l <> [] -> l <> [[]] ->
  spec_value PWords (VStr w) (VList (map VStr l)).
Proof.
  intros l w -> H1 H2 H3 H4. rewrite forallb_forall in H1, H2. apply SvWords; [exact H1| |exact H3|exact H4].
  apply Forall_forall. intros s Hs X. specialize (H2 _ Hs). rewrite forallb_forall in H2. specialize (H2 _ X). discriminate.
Qed.
Lemma pr_request_spec : spec_document oidc_request_types pr_request.
Proof.
  split.
  - vm_compute. repeat constructor; intros H; repeat (destruct H as [H|H]; [discriminate H|]); exact H.
  - intros k v w H. unfold pr_request in H. cbn [In] in H. destruct H as [H|[H|[H|[H|[H|[]]]]]]; injection H as <- <- <-.
    + exists PText. split; [vm_compute; tauto|]. apply SvText; [reflexivity|discriminate].
    + exists PWords. split; [vm_compute; tauto|]. apply (words_value [u "code"; u "id_token"]); reflexivity || discriminate.
    + exists PWords. split; [vm_compute; tauto|]. apply (words_value [u "openid"; u "email"]); reflexivity || discriminate.
    + exists PInt. split; [vm_compute; tauto|]. apply SvInt.
    + exists PWords. split; [vm_compute; tauto|]. apply (words_value [u "login"; u "consent"]); reflexivity || discriminate.
Qed.

Definition pr_jwk : dict value := [(u "kty", VStr (u "RSA")); (u "e", VStr (u "AQAB")); (u "n", VStr (u "0vx7"))].

(** an error response that has what RFC 6749 demands *)
Definition pr_error : dict value := [(u "error", VStr (u "invalid_scope")); (u "error_description", VStr (u "no such scope"))].
Lemma pr_error_choices : spec_choices C_oauth2_TokenErrorResponse pr_error.
Proof.
  intros k p vs v H Hv. cbn [In spec_values] in H.
  repeat (match type of H with _ \/ _ => destruct H as [H|H]; [try discriminate H|] end); [|destruct H].
  injection H as <- <- <-. vm_compute in Hv. injection Hv as <-. exists (u "invalid_scope"). split; [reflexivity|]. vm_compute. tauto.
Qed.
Lemma pr_error_desc : forall v, dget pr_error (u "error_description") = Some v -> desc_ok v.
Proof.
  intros v H. vm_compute in H. injection H as <-. intros c H. unfold desc_char.
  repeat (destruct H as [<-|H]; [|]); try destruct H; vm_compute; intuition congruence.
Qed.
Definition pr_choose : dict value :=
  [(u "client_id", VStr (u "c")); (u "response_type", VList [VStr (u "code")]); (u "scope", VList [VStr (u "openid")]); (u "redirect_uri", VStr (u "https://rp/cb"));
   (u "display", VStr (u "touch")); (u "prompt", VList [VStr (u "login"); VStr (u "select_account")])].
Lemma pr_choose_choices : spec_choices C_oidc_AuthorizationRequest pr_choose.
Proof.
  intros k p vs v H Hv. cbn [In spec_values] in H.
  repeat (match type of H with _ \/ _ => destruct H as [H|H]; [try discriminate H|] end); [| |destruct H]; injection H as <- <- <-; vm_compute in Hv; injection Hv as <-.
  - exists (u "touch"). split; [reflexivity|]. vm_compute. tauto.
  - exists [u "login"; u "select_account"]. split; [reflexivity|]. intros t Ht. vm_compute in Ht. vm_compute. tauto.
Qed.
