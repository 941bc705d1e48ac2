(** Contents for the examples of the round trip properties. *)
From Coq Require Import List NArith ZArith Bool String.
From Verif Require Import Base.Ustr Model.Cls Model.Value Model.Pspec Model.Tables Model.Message
  Spec.JsonSpec Spec.MessageSpec Spec.CodecSpec Spec.RoundTripSpec Proofs.ValueLemmas Proofs.Deciders.
Import ListNotations.
Open Scope list_scope.
Open Scope N_scope.

(** a request with awkward texts, a nested claims request two levels deep, a tagged and undeclared parameters *)
Definition rt_claims : value :=
  VMsg C_oidc_ClaimsRequest
    [(u "id_token", VMsg C_oidc_Claims [(u "auth_time", VDict [(u "essential", VBool true)]); (u "acr", VNone)])].
Definition rt_request : dict value :=
  [(u "response_type", VList [VStr (u "code"); VStr (u "id_token")]); (u "client_id", VStr (u "a&b=c+d%20"));
   (u "scope", VList [VStr (u "openid")]); (u "redirect_uri", VStr (u "https://rp/cb?x=1&y=2#z"));
   (u "state", VStr [233; 32; 128512; 34]); (u "claims", rt_claims);
   (u "registration", VDict [(u "n", VList [VInt 1; VNone])]); (u "x&y=", VStr (u "&z=1"));
   (u "state#sv", VStr (u "s"))].
(** a resource descriptor with a list of messages *)
Definition rt_links : list (dict value) :=
  [[(u "rel", VStr (u "r1")); (u "properties", VDict [(u "k", VInt (-3))])]; [(u "rel", VStr (u "r2"))]].
Definition rt_jrd : dict value :=
  [(u "subject", VStr (u "acct:x@y")); (u "aliases", VList [VStr (u "a b"); VStr []]);
   (u "links", VList (map (VMsg C_oidc_Link) rt_links));
   (u "extra", VDict [(u "", VList [])])].

Ltac spec_of_key := match goal with |- _ (param_spec ?P ?k) _ =>
  let s := eval vm_compute in (param_spec P k) in change (param_spec P k) with s end.
Ltac not_list := let e := fresh in intros e; discriminate.
Ltac texts_ok := let s := fresh in let H := fresh in intros s H; repeat (destruct H as [<-|H]; [vm_compute; reflexivity|]); destruct H.
Ltac blank_ok := apply Forall_forall; let s := fresh in let H := fresh in intros s H;
  repeat (destruct H as [<-|H]; [vm_compute; intuition discriminate|]); destruct H.
Ltac not_blank := let H := fresh in intros [H|H]; discriminate.
Ltac each H := repeat (destruct H as [H|H]; [injection H as <- <-|]); try destruct H.
Ltac is_plain :=
  first [ apply PlAny; [apply jsonb_ok; vm_compute; reflexivity|not_blank]
        | apply PlStr; [reflexivity|reflexivity|vm_compute; reflexivity|discriminate]
        | apply PlJson; [reflexivity|first [left; split; reflexivity|right; split; reflexivity]|apply jsonb_ok; vm_compute; reflexivity] ].

Lemma rt_claims_canon : canon (param_spec (cd_param (cdef C_oidc_AuthorizationRequest)) (u "claims")) rt_claims.
Proof.
  spec_of_key. apply CnMsg; [|reflexivity|apply nodupb_ok; vm_compute; reflexivity| |].
  - split; [eexists; reflexivity|]. split; [right; left; reflexivity|right; right; right; reflexivity].
  - intros k v H. each H. vm_compute; reflexivity.
  - intros k v H. each H. spec_of_key. apply CnMsg; [|reflexivity|apply nodupb_ok; vm_compute; reflexivity| |].
    + split; [eexists; reflexivity|]. split; [right; right; reflexivity|right; right; left; reflexivity].
    + intros k v H. each H; vm_compute; reflexivity.
    + intros k v H. each H; spec_of_key; apply CnPlain; is_plain.
Qed.
Ltac sp_list l := apply (PlSpSep _ l); [reflexivity|reflexivity|reflexivity|texts_ok|blank_ok|discriminate|discriminate].
Lemma rt_request_canon : content canon (cd_param (cdef C_oidc_AuthorizationRequest)) rt_request.
Proof.
  split; [apply nodupb_ok; vm_compute; reflexivity|]. intros k v H. each H; (split; [vm_compute; reflexivity|]); try exact rt_claims_canon;
    spec_of_key; apply CnPlain; try is_plain.
  - sp_list [u "code"; u "id_token"].
  - sp_list [u "openid"].
Qed.
Lemma rt_jrd_canon : content canon (cd_param (cdef C_oidc_JRD)) rt_jrd.
Proof.
  split; [apply nodupb_ok; vm_compute; reflexivity|]. intros k v H. each H; (split; [vm_compute; reflexivity|]);
    spec_of_key; try (apply CnPlain; is_plain).
  - apply CnPlain. apply (PlList _ [u "a b"; []]); [reflexivity|reflexivity|reflexivity|texts_ok|discriminate|discriminate].
  - apply (CnMsgs _ C_oidc_Link rt_links); [|reflexivity|discriminate| | |].
    + split; [reflexivity|left; repeat split].
    + intros d H. repeat (destruct H as [<-|H]; [apply nodupb_ok; vm_compute; reflexivity|]). destruct H.
    + intros d k v Hd H. repeat (destruct Hd as [<-|Hd]; [each H; (split; [vm_compute; reflexivity|split; [discriminate|split; [discriminate|exact I]]])|]). destruct Hd.
    + intros d k v Hd H. repeat (destruct Hd as [<-|Hd]; [each H; spec_of_key; apply CnPlain; is_plain|]). destruct Hd.
Qed.
Lemma rt_request_urlable : content urlable (cd_param (cdef C_oidc_AuthorizationRequest)) rt_request.
Proof.
  split; [apply nodupb_ok; vm_compute; reflexivity|]. intros k v H. each H; (split; [vm_compute; reflexivity|]).
  - spec_of_key. apply (UrList _ TStr [u "code"; u "id_token"]); [reflexivity|right; reflexivity|right; reflexivity|texts_ok|blank_ok|discriminate|discriminate].
  - spec_of_key. apply UrStr; [not_list|reflexivity|vm_compute; reflexivity|discriminate].
  - spec_of_key. apply (UrList _ TStr [u "openid"]); [reflexivity|right; reflexivity|right; reflexivity|texts_ok|blank_ok|discriminate|discriminate].
  - spec_of_key. apply UrStr; [not_list|reflexivity|vm_compute; reflexivity|discriminate].
  - spec_of_key. apply UrStr; [not_list|reflexivity|vm_compute; reflexivity|discriminate].
  - pose proof rt_claims_canon as G. unfold rt_claims in *.
    match goal with |- urlable ?b _ => let s := eval vm_compute in b in change b with s; change b with s in G end.
    apply UrMsg; [|reflexivity|exact G].
    split; [eexists; reflexivity|]. split; [right; left; reflexivity|right; right; right; reflexivity].
  - spec_of_key. apply UrJson; [reflexivity|reflexivity|apply jsonb_ok; vm_compute; reflexivity].
  - spec_of_key. apply UrAny; [vm_compute; reflexivity|discriminate].
  - spec_of_key. apply UrStr; [not_list|reflexivity|vm_compute; reflexivity|discriminate].
Qed.
Lemma rt_request_required : has_required (cdef C_oidc_AuthorizationRequest) rt_request.
Proof.
  intros k s H Hr. assert (G : forallb (fun ks => negb (p_req (snd ks)) || umem (fst ks) (map fst rt_request)) (cd_param (cdef C_oidc_AuthorizationRequest)) = true)
    by (vm_compute; reflexivity).
  rewrite forallb_forall in G. specialize (G _ H). cbn [fst snd] in G. rewrite Hr in G. apply umem_In. exact G.
Qed.

(** computing the other direction *)
Definition okv {A} (x : A) (r : res A) : A := match r with Ok y => y | Err _ => x end.
Lemma rt_request_json : exists t, to_json (cdef C_oidc_AuthorizationRequest) rt_request = Ok t /\
  from_json (cdef C_oidc_AuthorizationRequest) (cd_default (cdef C_oidc_AuthorizationRequest)) t = (rt_request, Ok tt).
Proof. exists (okv [] (to_json (cdef C_oidc_AuthorizationRequest) rt_request)). split; vm_compute; reflexivity. Qed.
Lemma rt_request_url : exists t, to_urlencoded (cdef C_oidc_AuthorizationRequest) false rt_request = Ok t /\
  from_urlencoded (cdef C_oidc_AuthorizationRequest) (cd_default (cdef C_oidc_AuthorizationRequest)) t = (rt_request, Ok tt).
Proof. exists (okv [] (to_urlencoded (cdef C_oidc_AuthorizationRequest) false rt_request)). split; vm_compute; reflexivity. Qed.
Lemma rt_jrd_dict : exists r, to_dict (cdef C_oidc_JRD) rt_jrd = Ok r /\
  from_dict (cdef C_oidc_JRD) (cd_default (cdef C_oidc_JRD)) (VDict r) = (rt_jrd, Ok tt).
Proof. exists (okv [] (to_dict (cdef C_oidc_JRD) rt_jrd)). split; vm_compute; reflexivity. Qed.
Lemma default_back : exists d t d', content canon (cd_param (cdef C_oidc_RegistrationRequest)) d /\
  to_json (cdef C_oidc_RegistrationRequest) d = Ok t /\
  from_json (cdef C_oidc_RegistrationRequest) (cd_default (cdef C_oidc_RegistrationRequest)) t = (d', Ok tt) /\
  dget d (u "response_types") = None /\ dget d' (u "response_types") = Some (VList [VStr (u "code")]).
Proof.
  exists [], (u "{}"), (cd_default (cdef C_oidc_RegistrationRequest)).
  split; [split; [constructor|intros k v []]|]. repeat split; vm_compute; reflexivity.
Qed.
