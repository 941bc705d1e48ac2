(** Assertions of honest clients. *)
From Coq Require Import List NArith ZArith QArith Bool String Lia.
From Verif Require Import Base.Ustr Base.UstrLemmas Base.Utf8 Model.Cls Model.Value Model.Pspec Model.Tables Model.Json Model.Message Model.Env Model.Verify Model.Jose
  Spec.MessageSpec Spec.CodecSpec Spec.RoundTripSpec Spec.VerifySpec Spec.JoseSpec Spec.OrderSpec Spec.FlowSpec Spec.AssertionSpec
  Proofs.ValueLemmas Proofs.MessageLemmas Proofs.TypeLemmas Proofs.VerifyLemmas Proofs.TokenLemmas Proofs.RoundTrip Proofs.OtherVerify Proofs.ClassVerify Proofs.ResponseLemmas Proofs.JoseLemmas Proofs.RequestObjectLemmas Proofs.OrderLemmas Proofs.FlowLemmas.
Import ListNotations.
Open Scope list_scope.
Open Scope N_scope.

Ltac key := match goal with |- _ (param_spec ?P ?k) _ => let s := eval vm_compute in (param_spec P k) in change (param_spec P k) with s end.
Ltac lit := split; [reflexivity|discriminate].

Lemma rules_same : forall now K d1 d2, (forall k, dget d1 k = dget d2 k) -> jwt_rules now K d1 -> jwt_rules now K d2.
Proof. intros now K d1 d2 H [A B C D G]. constructor; rewrite <- H; assumption. Qed.
(** any signed JWT: accepted exactly if the claims that were signed keep the rules *)
Lemma signed_accepted : forall J P E K i c d alg keys life args d1 tok, subclass c C_oidc_JsonWebToken = true ->
  content canon (cd_param (cdef c)) d -> to_jwt J P c d keys alg life = (d1, Ok tok) -> reads_signed J E alg keys -> trusts E i args tok ->
  exists d' h, from_jwt E i (cdef c) tok true true args = Ok (d', Some h) /\ (forall k, dget d' k = dget d k) /\
    forall hdr, (verify E K hdr c d' = (d', Ok true) <-> table_ok (cdef c) d /\ jwt_rules (e_now E) K d).
Proof.
  intros J P E K i c d alg keys life args d1 tok Hc Hd Ht Hr Htr.
  assert (X : to_jwt J P c d keys alg life = (d, message_to_jwt J (cdef c) d keys alg)).
  { unfold to_jwt. replace (subclass c C_oidc_IdToken) with false; [reflexivity|]. destruct c; try discriminate Hc; reflexivity. }
  rewrite X in Ht. injection Ht as -> Ht.
  assert (Hdef : covers_defaults (cdef c) d1).
  { intros k Hk. destruct c; try discriminate Hc; vm_compute in Hk; contradiction. }
  destruct (c103 J E i (cdef c) d1 alg keys args true tok Hd Hdef Ht Hr (or_intror (or_intror Htr))) as (d' & h & A & B & G).
  exists d', h. split; [exact A|]. split; [exact G|]. intro hdr. rewrite (c39 E K hdr c d' Hc). split; intros [T R]; (split; [eapply table_same; [|exact T]|eapply rules_same; [|exact R]]; intro k; rewrite G; reflexivity).
Qed.

Section Assertion.
Variables (client : ustr) (auds : list ustr) (jti : ustr) (iat exp : Z).
Hypothesis HA : assertion_ok client auds jti exp.
Lemma assertion_content : content canon (cd_param (cdef C_oidc_AuthnToken)) (assertion client auds jti iat exp).
Proof.
  destruct HA as [[C1 C2] [J1 J2] S A _]. split.
  - cbn [map fst assertion]. repeat (constructor; [cbn [In map fst]; intuition discriminate|]). constructor.
  - intros k v H. cbn [In assertion] in H. repeat (destruct H as [H|H]; [injection H as <- <-; split; [reflexivity|]; key|]); [..|contradiction]; apply CnPlain.
    + apply PlStr; [reflexivity|reflexivity|assumption|assumption].
    + apply PlStr; [reflexivity|reflexivity|assumption|assumption].
    + apply PlList; try reflexivity; [|exact S|]. { intros a Ha. apply (A a Ha). } intros ->. destruct (A [] (or_introl eq_refl)) as [_ X]. congruence.
    + apply PlStr; [reflexivity|reflexivity|assumption|assumption].
    + apply PlInt; reflexivity.
    + apply PlInt; reflexivity.
Qed.
Lemma assertion_table : table_ok (cdef C_oidc_AuthnToken) (assertion client auds jti iat exp).
Proof.
  destruct HA as [C1 J1 S A X0]. split.
  - intros a (s & I & N & R & Y). match type of I with In _ ?l => let l' := eval vm_compute in l in change (In (a, s) l') in I end.
    repeat (destruct I as [I|I]; [injection I as <- <-; first [discriminate R | apply Y; eexists; split; [reflexivity|right; first [apply ne_list; exact S | apply ne; assumption | intro Z0; inversion Z0; congruence]]]|]); contradiction.
  - intros a (s & v & al & I & N & V & G & X & _). match type of I with In _ ?l => let l' := eval vm_compute in l in change (In (a, s) l') in I end.
    repeat (destruct I as [I|I]; [injection I as <- <-; first [discriminate X | discriminate V]|]); contradiction.
Qed.
Lemma at_least_int : forall z n, at_least (VInt z) n <-> (n <= z)%Z.
Proof. intros z n. unfold at_least. cbn [num_of]. rewrite Zle_Qle. split; [intros (q & H & L); injection H as <-; exact L|intro L; exists (inject_Z z); split; [reflexivity|exact L]]. Qed.
Lemma at_most_int : forall z n, at_most (VInt z) n <-> (z <= n)%Z.
Proof. intros z n. unfold at_most. cbn [num_of]. rewrite Zle_Qle. split; [intros (q & H & L); injection H as <-; exact L|intro L; exists (inject_Z z); split; [reflexivity|exact L]]. Qed.
Lemma in_list_text : forall x l, contains (VList (map VStr l)) (VStr x) <-> In x l.
Proof.
  intros x l. cbn [contains]. split.
  - intros (y & I & Q). apply in_map_iff in I. destruct I as (s & <- & I). apply py_eq_str_l in Q. injection Q as <-. exact I.
  - intro I. exists (VStr x). split; [apply in_map; exact I|apply py_eq_text].
Qed.
Lemma assertion_rules : forall now me cl skew,
  jwt_rules now (server_args me cl skew) (assertion client auds jti iat exp) <->
  In me auds /\ cl = client /\ (iat <= now + skew)%Z /\ (now - skew <= exp)%Z.
Proof.
  intros now me cl skew. assert (W : arg_int (server_args me cl skew) (u "skew") 0 skew) by (right; exists (VInt skew); split; reflexivity). split.
  - intros [X1 X2 X3 X4 X5]. repeat split.
    + apply in_list_text. exact (X4 _ _ eq_refl eq_refl).
    + specialize (X5 _ _ eq_refl eq_refl). apply py_eq_str_l in X5. injection X5 as <-. reflexivity.
    + pose proof (X2 _ eq_refl) as L. apply (past_whole _ _ _ _ W), at_most_int in L. exact L.
    + pose proof (X1 _ eq_refl) as L. apply (exp_whole _ _ _ _ W), at_least_int in L. exact L.
  - intros (I & -> & L1 & L2). constructor.
    + intros e He. injection He as <-. apply (exp_whole _ _ _ _ W), at_least_int. exact L2.
    + intros e He. injection He as <-. apply (past_whole _ _ _ _ W), at_most_int. exact L1.
    + intros e He. discriminate He.
    + intros aud a Ha Hk. injection Ha as <-. injection Hk as <-. apply in_list_text. exact I.
    + apply agree_text.
Qed.
Lemma assertion_accepted : forall J P E i alg keys life args d1 tok me cl skew,
  to_jwt J P C_oidc_AuthnToken (assertion client auds jti iat exp) keys alg life = (d1, Ok tok) -> reads_signed J E alg keys -> trusts E i args tok ->
  exists d h, from_jwt E i (cdef C_oidc_AuthnToken) tok true true args = Ok (d, Some h) /\
    (forall k, dget d k = dget (assertion client auds jti iat exp) k) /\
    forall hdr, (verify E (server_args me cl skew) hdr C_oidc_AuthnToken d = (d, Ok true) <->
      In me auds /\ cl = client /\ (iat <= e_now E + skew)%Z /\ (e_now E - skew <= exp)%Z).
Proof.
  intros J P E i alg keys life args d1 tok me cl skew Ht Hr Htr.
  destruct (signed_accepted J P E (server_args me cl skew) i C_oidc_AuthnToken _ alg keys life args d1 tok eq_refl assertion_content Ht Hr Htr) as (d & h & A & G & V).
  exists d, h. split; [exact A|]. split; [exact G|]. intro hdr. rewrite V, assertion_rules. split; [intros [_ X]; exact X|intro X; split; [exact assertion_table|exact X]].
Qed.
End Assertion.

Lemma assertion_sent : forall F tok, flow_ok F -> text tok -> forall E K hdr,
  exists t d, to_urlencoded (cdef C_oidc_AccessTokenRequest) false (assertion_request F tok) = Ok t /\
    from_urlencoded (cdef C_oidc_AccessTokenRequest) (cd_default (cdef C_oidc_AccessTokenRequest)) t = (d, Ok tt) /\
    verify E K hdr C_oidc_AccessTokenRequest d = (d, Ok true) /\ forall k, dget d k = dget (assertion_request F tok) k.
Proof.
  intros F tok HF [T1 T2] E K hdr. destruct (fl_texts F HF) as ([A1 A2] & [B1 B2] & _ & _ & [C1 C2] & _).
  destruct (url_round_trip (cdef C_oidc_AccessTokenRequest) false (assertion_request F tok)) as (t & d & A & B & G).
  { split.
    - cbn [map fst assertion_request token_request app]. repeat (constructor; [cbn [In map fst]; intuition discriminate|]). constructor.
    - intros k v H. cbn [In assertion_request token_request app] in H. repeat (destruct H as [H|H]; [injection H as <- <-; split; [reflexivity|]; key|]); [..|contradiction];
        (apply UrStr; [intros e X; discriminate X|reflexivity|first [assumption|reflexivity]|first [assumption|discriminate]]). }
  { intros k Hk. vm_compute in Hk. destruct Hk as [<-|[]]. left. reflexivity. }
  { right. intros k s I R. match type of I with In _ ?l => let l' := eval vm_compute in l in change (In (k, s) l') in I end.
    repeat (destruct I as [I|I]; [injection I as <- <-; first [discriminate R | vm_compute; tauto]|]); contradiction. }
  exists t, d. split; [exact A|]. split; [exact B|]. split; [|exact G].
  change (pure (verify_base (cdef C_oidc_AccessTokenRequest)) d = (d, Ok true)). unfold pure. f_equal.
  apply verify_base_true. split; [|reflexivity]. apply (table_same _ (assertion_request F tok)); [intro k; symmetry; apply G|]. split.
  - intros a (s & I & N & R & Y). match type of I with In _ ?l => let l' := eval vm_compute in l in change (In (a, s) l') in I end.
    repeat (destruct I as [I|I]; [injection I as <- <-; first [discriminate R | apply Y; eexists; split; [reflexivity|right; intro Z; inversion Z; congruence]]|]); contradiction.
  - intros a (s & v & al & I & N & V & W & X & Y). match type of I with In _ ?l => let l' := eval vm_compute in l in change (In (a, s) l') in I end.
    repeat (destruct I as [I|I]; [injection I as <- <-; first [discriminate X | discriminate V | idtac]|]); try contradiction.
    apply Y. injection V as <-. injection X as <-. cbn [allowed_value p_typ]. eexists. split; [left; reflexivity|apply py_eq_text].
Qed.

Lemma assertion_typed : forall E K hdr d t, verify E K hdr C_oidc_AccessTokenRequest d = (d, Ok true) ->
  dget d (u "client_assertion_type") = Some (VStr t) -> t = [] \/ t = u "urn:ietf:params:oauth:client-assertion-type:jwt-bearer".
Proof.
  intros E K hdr d t V G. destruct t as [|c t]; [left; reflexivity|]. right.
  change (pure (verify_base (cdef C_oidc_AccessTokenRequest)) d = (d, Ok true)) in V. unfold pure in V. injection V as V. apply verify_base_true in V. destruct V as [[_ V] _].
  destruct (list_eq_dec N.eq_dec (c :: t) (u "urn:ietf:params:oauth:client-assertion-type:jwt-bearer")) as [|D]; [assumption|]. exfalso.
  apply (V (u "client_assertion_type")). exists {| p_typ := TStr; p_req := false; p_ser := None; p_deser := None; p_null := false |}, (VStr (c :: t)), [VStr (u "urn:ietf:params:oauth:client-assertion-type:jwt-bearer")].
  split; [vm_compute; tauto|]. split; [discriminate|]. split; [exact G|]. split; [right; intro Z0; inversion Z0|]. split; [reflexivity|].
  intros (y & [<-|[]] & Q). apply py_eq_str_l in Q. apply D. congruence.
Qed.
