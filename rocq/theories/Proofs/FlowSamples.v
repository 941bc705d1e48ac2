(** A flow for the examples. *)
From Coq Require Import List NArith ZArith Bool String Lia.
From Verif Require Import Base.Ustr Base.UstrLemmas Base.Utf8 Model.Cls Model.Value Model.Pspec Model.Tables Model.Json Model.Message Model.Env Model.Verify Model.Jose
  Spec.MessageSpec Spec.CodecSpec Spec.RoundTripSpec Spec.VerifySpec Spec.JoseSpec Spec.FlowSpec Proofs.ValueLemmas Proofs.JoseSamples.
Import ListNotations.
Open Scope list_scope.
Open Scope N_scope.

Definition fl : flow := {| f_client := u "rp & co"; f_redirect := u "https://rp/cb?x=1&y=2"; f_scopes := [u "email"; u "phone"]; f_state := [233; 32; 128512];
  f_nonce := u "n0"; f_code := u "co=1"; f_token := u "at1"; f_issuer := u "https://op"; f_subject := u "diana" |}.
Lemma fl_ok : flow_ok fl.
Proof.
  constructor.
  - intros t H. cbn [In fl f_client f_redirect f_state f_nonce f_code f_token f_issuer f_subject] in H.
    repeat (destruct H as [<-|H]; [split; [vm_compute; reflexivity|discriminate]|]). contradiction.
  - intros s H. cbn [In fl f_scopes] in H. repeat (destruct H as [<-|H]; [split; [split; [vm_compute; reflexivity|discriminate]|vm_compute; intuition discriminate]|]). contradiction.
  - cbn [In fl f_scopes]. intros [H|[H|[]]]; discriminate.
Qed.
Definition fl_token : ustr := ok_or [] (snd (to_jwt toy (toy_env 1000) C_oidc_IdToken (token_claims fl) [7] (u "RS256") (VInt 600))).
Definition fl_hybrid_token : ustr := ok_or [] (snd (to_jwt toy (toy_env 1000) C_oidc_IdToken (hybrid_claims fl) [7] (u "RS256") (VInt 600))).
Ltac prove_partners := constructor;
  [ apply toy_reads | reflexivity | split; [discriminate|]; let a := fresh in let H := fresh in intros a H; vm_compute in H; discriminate
  | let args := fresh in let H := fresh in intros args H; match goal with |- trusts _ _ _ ?t => let x := eval vm_compute in t in change t with x end; apply toy_trusts;
    let v := fresh in let Hv := fresh in intros v Hv; rewrite H in Hv by (left; reflexivity); discriminate
  | let v := fresh in let H := fresh in intros v H; vm_compute in H; injection H as <-; reflexivity
  | reflexivity
  | split; [reflexivity|]; split; [reflexivity|]; exists 0%Z, 14400%Z; split; [left; split; reflexivity|]; split; [left; split; reflexivity|]; split; cbn; lia ].
Lemma fl_partners : partners toy (toy_env 1000) (toy_env 1500) (client_args fl) (u "RS256") [7] 600 (token_claims fl) fl_token.
Proof. prove_partners. Qed.
Lemma fl_hybrid_partners : partners toy (toy_env 1000) (toy_env 1500) (client_args fl) (u "RS256") [7] 600 (hybrid_claims fl) fl_hybrid_token.
Proof. prove_partners. Qed.
Definition fl_d1 : dict value := Eval vm_compute in fst (to_jwt toy (toy_env 1000) C_oidc_IdToken (token_claims fl) [7] (u "RS256") (VInt 600)).
Definition fl_hybrid_d1 : dict value := Eval vm_compute in fst (to_jwt toy (toy_env 1000) C_oidc_IdToken (hybrid_claims fl) [7] (u "RS256") (VInt 600)).

(** an ID Token without nonce, and what two clients that sent different nonces make of it *)
Definition fl_bare : dict value := ddel (token_claims fl) (u "nonce").
Definition fl_bare_token : ustr := Eval vm_compute in ok_or [] (snd (to_jwt toy (toy_env 1000) C_oidc_IdToken fl_bare [7] (u "RS256") (VInt 600))).
Definition fl_expects (n : string) : kwargs := {| kw := [(u "iss", VStr (u "https://op")); (u "client_id", VStr (u "rp & co")); (u "nonce", VStr (u n))]; kw_jar := true |}.
Definition fl_bare_result : dict value :=
  Eval vm_compute in fst (verify (toy_env 1500) (fl_expects "n0") None C_oidc_AccessTokenResponse (token_response fl fl_bare_token)).
Definition fl_result : dict value :=
  Eval vm_compute in fst (verify (toy_env 1500) (fl_expects "n0") None C_oidc_AccessTokenResponse (token_response fl fl_token)).
Definition fl_hybrid_result : dict value :=
  Eval vm_compute in fst (verify (toy_env 1500) (fl_expects "n0") None C_oidc_AuthorizationResponse (hybrid_response fl fl_hybrid_token)).
Definition fl_hybrid_result2 : dict value :=
  Eval vm_compute in fst (verify (toy_env 1400) (fl_expects "n0") None C_oidc_AuthorizationResponse
    (dset (hybrid_response fl fl_hybrid_token) (u "code") (VStr (u "co=2")))).

(** a flow that differs in a state that tries to look like more parameters *)
Definition fl2 : flow := {| f_client := u "rp & co"; f_redirect := u "https://rp/cb?x=1&y=2"; f_scopes := [u "email"; u "phone"]; f_state := u "a&nonce=b"",""c"":""";
  f_nonce := u "n0"; f_code := u "co=1"; f_token := u "at1"; f_issuer := u "https://op"; f_subject := u "diana" |}.
Lemma fl2_ok : flow_ok fl2.
Proof.
  constructor.
  - intros t H. cbn [In fl2 f_client f_redirect f_state f_nonce f_code f_token f_issuer f_subject] in H.
    repeat (destruct H as [<-|H]; [split; [vm_compute; reflexivity|discriminate]|]). contradiction.
  - intros s H. cbn [In fl2 f_scopes] in H. repeat (destruct H as [<-|H]; [split; [split; [vm_compute; reflexivity|discriminate]|vm_compute; intuition discriminate]|]). contradiction.
  - cbn [In fl2 f_scopes]. intros [H|[H|[]]]; discriminate.
Qed.
Lemma fl_required : forall F, has_required (cdef C_oidc_AuthorizationRequest) (auth_request F [u "code"]).
Proof.
  intros F k s H Hr. assert (G : forallb (fun ks => negb (p_req (snd ks)) || umem (fst ks) [u "response_type"; u "client_id"; u "redirect_uri"; u "scope"; u "state"; u "nonce"])
    (cd_param (cdef C_oidc_AuthorizationRequest)) = true) by (vm_compute; reflexivity).
  rewrite forallb_forall in G. specialize (G _ H). cbn [fst snd] in G. rewrite Hr in G. apply umem_In in G. exact G.
Qed.
Lemma toy_text_hash : forall now, text_hash (toy_env now).
Proof.
  intros now v h. split.
  - destruct v; discriminate.
  - intros x H. destruct v; try discriminate. injection H as <-. right. eauto.
Qed.
Definition fl_hybrid_tok : token := Eval vm_compute in match e_jws (toy_env 0) (VStr fl_hybrid_token) with Ok (Some t) => t | _ => {| t_hdr := []; t_body := Err EKeyError |} end.
Lemma fl_hybrid_signed : exists tok, e_jws (toy_env 0) (VStr fl_hybrid_token) = Ok (Some tok) /\ signed_tok tok.
Proof. exists fl_hybrid_tok. split; [vm_compute; reflexivity|]. intro H. discriminate. Qed.
Lemma no_nonce_witness : exists E K1 K2 d r idt t n1 n2,
  verify E K1 None C_oidc_AccessTokenResponse d = (r, Ok true) /\ verify E K2 None C_oidc_AccessTokenResponse d = (r, Ok true) /\
  dget d (u "id_token") = Some (VStr t) /\ not_encrypted E t /\
  kget K1 (u "nonce") = Some (VStr n1) /\ kget K2 (u "nonce") = Some (VStr n2) /\ n1 <> n2 /\
  dget r (u "__verified_id_token") = Some (VMsg C_oidc_IdToken idt) /\ dget idt (u "nonce") = None.
Proof.
  exists (toy_env 1500), (fl_expects "n0"), (fl_expects "n1"), (token_response fl fl_bare_token), fl_bare_result,
    (match dget fl_bare_result (u "__verified_id_token") with Some (VMsg _ d) => d | _ => [] end), fl_bare_token, (u "n0"), (u "n1").
  split; [vm_compute; reflexivity|]. split; [vm_compute; reflexivity|]. split; [reflexivity|]. split; [intros i a; reflexivity|].
  split; [reflexivity|]. split; [reflexivity|]. split; [discriminate|]. split; vm_compute; reflexivity.
Qed.
