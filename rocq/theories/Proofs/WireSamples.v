(** Documents for the examples about other implementations. *)
From Coq Require Import List NArith ZArith QArith Bool String Lia.
From Verif Require Import Base.Ustr Base.UstrLemmas Model.Cls Model.Value Model.Pspec Model.Tables Model.Json Model.Message
  Model.Env Model.Verify Model.Jose
  Spec.JsonSpec Spec.MessageSpec Spec.CodecSpec Spec.VerifySpec Spec.RoundTripSpec Spec.JoseSpec Spec.WireSpec Spec.LogoutSpec
  Proofs.ValueLemmas Proofs.Deciders Proofs.VerifyLemmas Proofs.TokenLemmas Proofs.OtherVerify Proofs.LogoutLemmas Proofs.Samples
  Proofs.RoundTripSamples Proofs.JoseSamples.
Import ListNotations.
Open Scope list_scope.
Open Scope N_scope.

(** the members that keep their value *)
Definition same_members (d : dict value) : list member := map (fun kv => (fst kv, snd kv, snd kv)) d.

(** a request object with a nested claims request *)
Definition wr_claims_in : list member := [(u "acr", VNone, VNone); (u "auth_time", VDict [(u "essential", VBool true)], VDict [(u "essential", VBool true)])].
Definition wr_claims : list member :=
  [(u "id_token", VDict (as_json wr_claims_in), VMsg C_oidc_Claims (as_message wr_claims_in))].
Definition wr_request : list member :=
  [(u "scope", VStr (u "openid email"), VList [VStr (u "openid"); VStr (u "email")]);
   (u "claims", VDict (as_json wr_claims), VMsg C_oidc_ClaimsRequest (as_message wr_claims))] ++
  same_members [(u "client_id", VStr (u "rp")); (u "max_age", VInt 60); (u "x", VList [VNone])].
(** a resource descriptor with an array of objects *)
Definition wr_links : list (list member) := map same_members rt_links.
Definition wr_jrd : list member :=
  [(u "links", VList (map (fun l => VDict (as_json l)) wr_links), VList (map (fun l => VMsg C_oidc_Link (as_message l)) wr_links))] ++
  same_members [(u "subject", VStr (u "acct:x@y")); (u "aliases", VList [VStr (u "a b")]); (u "properties", VDict [(u "p", VNone)])].

Ltac each3 H := repeat (destruct H as [H|H]; [injection H as <- <- <-|]); try destruct H.
Ltac wspec := match goal with |- _ (param_spec ?P ?k) _ _ =>
  let s := eval vm_compute in (param_spec P k) in change (param_spec P k) with s end.
Ltac is_wire :=
  first [ apply WrAny; [apply jsonb_ok; vm_compute; reflexivity|not_blank]
        | apply WrStr; [reflexivity|reflexivity|vm_compute; reflexivity|discriminate]
        | apply WrInt; reflexivity
        | apply WrBool; reflexivity
        | apply WrObject; [reflexivity|reflexivity|reflexivity|apply jsonb_ok; vm_compute; reflexivity] ].
Ltac wr_words l := apply (WrWords _ l); [reflexivity|reflexivity|reflexivity|texts_ok|blank_ok|discriminate|discriminate].
Ltac wr_list l := apply (WrList _ l); [reflexivity|reflexivity|reflexivity|texts_ok|discriminate|discriminate].

Lemma wr_request_wire : document wire (cd_param (cdef C_oidc_AuthorizationRequest)) wr_request.
Proof.
  split; [apply nodupb_ok; vm_compute; reflexivity|]. intros k v w H. each3 H; (split; [vm_compute; reflexivity|]); wspec; try is_wire.
  - wr_words [u "openid"; u "email"].
  - apply (WrMsg _ C_oidc_ClaimsRequest wr_claims); [|reflexivity|apply nodupb_ok; vm_compute; reflexivity| |].
    + split; [eexists; reflexivity|]. split; [right; left; reflexivity|right; right; right; reflexivity].
    + intros k v w H. each3 H. vm_compute; reflexivity.
    + intros k v w H. each3 H. wspec. apply (WrMsg _ C_oidc_Claims wr_claims_in); [|reflexivity|apply nodupb_ok; vm_compute; reflexivity| |].
      * split; [eexists; reflexivity|]. split; [right; right; reflexivity|right; right; left; reflexivity].
      * intros k v w H. each3 H; vm_compute; reflexivity.
      * intros k v w H. each3 H; wspec; is_wire.
Qed.
Lemma wr_jrd_wire : document wire (cd_param (cdef C_oidc_JRD)) wr_jrd.
Proof.
  split; [apply nodupb_ok; vm_compute; reflexivity|]. intros k v w H. each3 H; (split; [vm_compute; reflexivity|]); wspec; try is_wire.
  - apply (WrMsgs _ C_oidc_Link wr_links); [|reflexivity|discriminate| | |].
    + split; [reflexivity|left; repeat split].
    + intros l H. repeat (destruct H as [<-|H]; [apply nodupb_ok; vm_compute; reflexivity|]). destruct H.
    + intros l k v w Hl H. repeat (destruct Hl as [<-|Hl]; [each3 H; (split; [vm_compute; reflexivity|split; [discriminate|split; [discriminate|exact I]]])|]). destruct Hl.
    + intros l k v w Hl H. repeat (destruct Hl as [<-|Hl]; [each3 H; wspec; is_wire|]). destruct Hl.
  - wr_list [u "a b"].
Qed.

(** ** logout tokens *)
Definition lo_event : value := VDict [(u "http://schemas.openid.net/event/backchannel-logout", VDict [])].
(** by another implementation: the audience is a text, the events an object *)
Definition lo_members : list member :=
  [(u "aud", VStr (u "rp"), VList [VStr (u "rp")])] ++
  same_members [(u "iss", VStr (u "https://op")); (u "iat", VInt 900); (u "jti", VStr (u "j1")); (u "sid", VStr (u "s1")); (u "events", lo_event)].
Lemma lo_tolerated : document tolerated (cd_param (cdef C_session_LogoutToken)) lo_members.
Proof.
  split; [apply nodupb_ok; vm_compute; reflexivity|]. intros k v w H. each3 H; (split; [vm_compute; reflexivity|]); wspec; try (apply TlWire; is_wire).
  - apply TlOne; [reflexivity|reflexivity|reflexivity|vm_compute; reflexivity|discriminate|vm_compute; intuition discriminate].
  - apply TlObject; [reflexivity|reflexivity|reflexivity|apply jsonb_ok; vm_compute; reflexivity].
Qed.
Definition lo_dict : dict value := as_message lo_members.
Lemma lo_canon : content canon (cd_param (cdef C_session_LogoutToken)) lo_dict.
Proof.
  split; [apply nodupb_ok; vm_compute; reflexivity|]. intros k v H. each H; (split; [vm_compute; reflexivity|]);
    spec_of_key; apply CnPlain; try is_plain.
  - apply (PlList _ [u "rp"]); [reflexivity|reflexivity|reflexivity|texts_ok|discriminate|discriminate].
  - apply PlInt; reflexivity.
Qed.
Lemma lo_ok : logout_claims_ok lo_dict.
Proof.
  constructor.
  - intros k H. cbn [In] in H. destruct H as [<-|[<-|[<-|[<-|[]]]]]; (eexists; split; [reflexivity|]); intro X; inversion X.
  - reflexivity.
  - right. discriminate.
  - reflexivity.
Qed.
Definition lo_args : kwargs := with_jar
  [(u "iss", VStr (u "https://op")); (u "aud", VStr (u "rp")); (u "allowed_sign_alg", VStr (u "RS256")); (u "skew", VInt 10)].
Lemma text_agree : forall x : ustr, agree (Some (VStr x)) (Some (VStr x)).
Proof. intros x a b Ha Hb. injection Ha as <-. injection Hb as <-. apply py_eq_str_r. reflexivity. Qed.
Lemma lo_for : logout_for 895 lo_args lo_dict.
Proof.
  constructor.
  - apply text_agree.
  - intros aud a Ha Hk. change (dget lo_dict (u "aud")) with (Some (VList [VStr (u "rp")])) in Ha. injection Ha as <-.
    change (kget lo_args (u "aud")) with (Some (VStr (u "rp"))) in Hk. injection Hk as <-. eexists. split; [left; reflexivity|reflexivity].
  - intros t Ht. change (dget lo_dict (u "iat")) with (Some (VInt 900)) in Ht. injection Ht as <-. exists 900%Z, 10%Z. split; [reflexivity|].
    split; [right; exists (VInt 10); split; reflexivity|lia].
Qed.
Definition lo_token : ustr := Eval vm_compute in ok_or [] (message_to_jwt toy (cdef C_session_LogoutToken) lo_dict [7] (u "RS256")).
Lemma lo_made : to_jwt toy (toy_env 0) C_session_LogoutToken lo_dict [7] (u "RS256") (VInt 0) = (lo_dict, Ok lo_token).
Proof. vm_compute. reflexivity. Qed.
Lemma lo_checks : forall now i r, can_check (toy_env now) lo_args i (u "RS256") (83 :: 7 :: r).
Proof.
  intros now i r. constructor; [reflexivity| |].
  - intros a H. change (kget lo_args (u "allowed_sign_alg")) with (Some (VStr (u "RS256"))) in H. congruence.
  - intros args H. apply toy_trusts. intros v Hv. rewrite H in Hv by (left; reflexivity). discriminate.
Qed.
(** the token of the other implementation: its text is that of the JSON document *)
Definition signed_text (d : dict value) : ustr := 83 :: 7 :: 5 :: u "RS256" ++ ok_or [] (json_dumps (VDict d)).
Definition lo_foreign : ustr := Eval vm_compute in signed_text (as_json lo_members).
Lemma lo_foreign_jws : forall now, e_jws (toy_env now) (VStr lo_foreign) =
  Ok (Some {| t_hdr := [(u "alg", VStr (u "RS256"))]; t_body := Ok (VDict (as_json lo_members)) |}).
Proof. intro now. vm_compute. reflexivity. Qed.

(** ** ID Tokens *)
Definition id_members : list member :=
  [(u "aud", VStr (u "rp"), VList [VStr (u "rp")])] ++
  same_members [(u "iss", VStr (u "https://op")); (u "sub", VStr (u "diana")); (u "exp", VInt 1600); (u "iat", VInt 1000);
    (u "nonce", VStr (u "n0")); (u "at_hash", VStr (u "HS256:at")); (u "auth_time", VInt 999); (u "roles", VList [VStr (u "admin")])].
Lemma id_tolerated : document tolerated (cd_param (cdef C_oidc_IdToken)) id_members.
Proof.
  split; [apply nodupb_ok; vm_compute; reflexivity|]. intros k v w H. each3 H; (split; [vm_compute; reflexivity|]); wspec; try (apply TlWire; is_wire).
  apply TlOne; [reflexivity|reflexivity|reflexivity|vm_compute; reflexivity|discriminate|vm_compute; intuition discriminate].
Qed.
Definition id_dict : dict value := as_message id_members.
Lemma id_ok : id_claims_ok id_dict.
Proof.
  constructor; [|discriminate|discriminate].
  intros k H. cbn [In] in H. destruct H as [<-|[<-|[<-|[<-|[<-|[]]]]]]; (eexists; split; [reflexivity|]); intro X; inversion X.
Qed.
Lemma id_meant : meant_for honest_args id_dict.
Proof.
  constructor.
  - apply text_agree.
  - intros aud c Ha Hc. change (kget honest_args (u "client_id")) with (Some (VStr (u "rp"))) in Hc. injection Hc as <-.
    change (dget id_dict (u "aud")) with (Some (VList [VStr (u "rp")])) in Ha. injection Ha as <-.
    eexists. split; [left; reflexivity|reflexivity].
  - intros aud n Ha Hs Hn. change (dget id_dict (u "aud")) with (Some (VList [VStr (u "rp")])) in Ha. injection Ha as <-.
    inversion Hs; subst; cbn in Hn; lia.
  - intros a b _ Hb. discriminate.
  - apply text_agree.
Qed.
Lemma id_timely : timely 1500 honest_args id_dict.
Proof.
  exists 0%Z, 14400%Z, 1600%Z, 1000%Z. split; [left; split; reflexivity|]. split; [left; split; reflexivity|].
  split; [reflexivity|]. split; [reflexivity|]. lia.
Qed.
Definition id_foreign : ustr := Eval vm_compute in signed_text (as_json id_members).
Lemma id_foreign_jws : forall now, e_jws (toy_env now) (VStr id_foreign) =
  Ok (Some {| t_hdr := [(u "alg", VStr (u "RS256"))]; t_body := Ok (VDict (as_json id_members)) |}).
Proof. intro now. vm_compute. reflexivity. Qed.
Definition id_response : dict value :=
  [(u "access_token", VStr (u "at1")); (u "token_type", VStr (u "Bearer")); (u "state", VStr (u "s")); (u "id_token", VStr id_foreign)].
Lemma id_fits : msg_fits honest_args C_oidc_AuthorizationResponse id_response.
Proof.
  constructor.
  - apply table_by_compute. vm_compute; reflexivity.
  - intros v _ H. vm_compute in H. discriminate.
  - intros _ x y Hx Hy. discriminate.
  - intros _ x y Hx. vm_compute in Hx. discriminate.
  - intros aud i _ H. vm_compute in H. discriminate.
Qed.
Lemma id_bound : bound_by (toy_env 1500) (u "HS256") id_response id_dict.
Proof.
  intros k hk x Hk Hx. cbn [In] in Hk. destruct Hk as [Hk|[Hk|[]]]; injection Hk as <- <-; [|discriminate].
  change (dget id_response (u "access_token")) with (Some (VStr (u "at1"))) in Hx. injection Hx as <-.
  exists (u "HS256:at"). split; vm_compute; reflexivity.
Qed.
Lemma id_checks : forall now i r, can_check (toy_env now) honest_args i (u "RS256") (83 :: 7 :: r).
Proof.
  intros now i r. constructor; [reflexivity| |].
  - intros a H. change (kget honest_args (u "allowed_sign_alg")) with (Some (VStr (u "RS256"))) in H. congruence.
  - intros args H. apply toy_trusts. intros v Hv. rewrite H in Hv by (left; reflexivity). discriminate.
Qed.

Definition id_logout : dict value :=
  [(u "id_token_hint", VStr id_foreign); (u "post_logout_redirect_uri", VStr (u "https://rp/out")); (u "state", VStr (u "s"))].
Lemma id_logout_ok : table_ok (cdef C_session_EndSessionRequest) id_logout.
Proof. apply table_by_compute. vm_compute; reflexivity. Qed.
Lemma id_logout_late : forall (now : Z) msg', (1600 < now)%Z ->
  verify (toy_env now) honest_args None C_session_EndSessionRequest id_logout <> (msg', Ok true).
Proof.
  intros now msg' H V.
  assert (Hn : not_encrypted (toy_env now) id_foreign) by (intros args; reflexivity).
  destruct (c127_expired _ _ _ _ _ id_foreign V eq_refl Hn) as (idt & e & D & X1 & X2).
  pose proof (foreign_jwt (toy_env now) honest_args 0 id_members (u "RS256") _ id_foreign id_tolerated (id_foreign_jws now) Hn eq_refl
    (id_checks now 0 _)) as F.
  apply from_jwt_decoded in F. pose proof (decoded_fun _ _ _ _ _ _ _ Hn D F) as Heq.
  rewrite Heq in X1. change (dget (as_message id_members) (u "exp")) with (Some (VInt 1600)) in X1. injection X1 as <-.
  assert (W : arg_int honest_args (u "skew") 0 0) by (left; split; reflexivity). apply (exp_whole _ _ _ _ W) in X2. destruct X2 as (q & X2 & X4). injection X2 as <-.
  change (e_now (toy_env now)) with now in X4. unfold Qle in X4. cbn [inject_Z Qnum Qden] in X4. lia.
Qed.
