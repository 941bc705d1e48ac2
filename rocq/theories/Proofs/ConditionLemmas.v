(** Proofs of C148 and C149. *)
From Coq Require Import List NArith ZArith Bool String.
From Verif Require Import Base.Ustr Base.UstrLemmas Model.Cls Model.Value Model.Pspec Model.Tables Model.Message Model.Env Model.Verify
  Spec.MessageSpec Spec.VerifySpec Spec.FrameSpec Spec.ConditionSpec Proofs.ValueLemmas Proofs.VerifyLemmas Proofs.ClassVerify Proofs.OtherVerify
  Proofs.FrameLemmas Proofs.BindingLemmas.
Import ListNotations.
Open Scope list_scope.
Open Scope N_scope.

Lemma names_get : forall (d : dict value) k, In k (names d) <-> dget d k <> None.
Proof.
  intros d k. unfold names. split.
  - intros H G. apply dget_None in G. exact (G H).
  - intro H. destruct (in_dec (list_eq_dec N.eq_dec) k (map fst d)) as [I|I]; [exact I|]. exfalso. apply H. apply dget_None. exact I.
Qed.

Lemma kept_together : forall E K hdr c d d' a b, In (c, a, b) together -> verify E K hdr c d = (d', Ok true) ->
  In a (names d') -> In b (names d').
Proof.
  intros E K hdr c d d' a b Hin H Ha. unfold together in Hin. cbn [In] in Hin.
  destruct Hin as [X|[X|[X|[X|[X|[X|[X|[X|[X|[]]]]]]]]]]; injection X as <- <- <-.
  1-6: destruct (c44_result E K hdr d d' H) as [_ [B _]].
  1: exact (proj2 (B (u "request_object_encryption") (or_introl eq_refl)) Ha).
  1: exact (proj1 (B (u "request_object_encryption") (or_introl eq_refl)) Ha).
  1: exact (proj2 (B (u "id_token_encrypted_response") (or_intror (or_introl eq_refl))) Ha).
  1: exact (proj1 (B (u "id_token_encrypted_response") (or_intror (or_introl eq_refl))) Ha).
  1: exact (proj2 (B (u "userinfo_encrypted_response") (or_intror (or_intror (or_introl eq_refl)))) Ha).
  1: exact (proj1 (B (u "userinfo_encrypted_response") (or_intror (or_intror (or_introl eq_refl)))) Ha).
  1-2: assert (d' = d) by (change (verify E K hdr C_oidc_RegistrationResponse d) with
         (d, registration_response_verify (cdef C_oidc_RegistrationResponse) d) in H; congruence); subst d';
       apply c45_class in H; destruct H as [_ H]; apply H; exact Ha.
  pose proof (c128 E K hdr _ d d' _ H) as F.
  assert (F' : only_changed (may_write C_session_EndSessionRequest) d d') by (apply F; intro T; vm_compute in T; discriminate).
  assert (W : forall k, In k [u "id_token_hint"; u "post_logout_redirect_uri"] -> ~ may_write C_session_EndSessionRequest k).
  { intros k Hk (b & ns & Hin & Hs & Hn). unfold written in Hin. cbn [In] in Hin.
    repeat match type of Hin with _ \/ _ => destruct Hin as [Hin|Hin] end; try contradiction; injection Hin as <- <-; try discriminate.
    cbn [In verified_names] in Hk, Hn. destruct Hk as [<-|[<-|[]]]; repeat match type of Hn with _ \/ _ => destruct Hn as [Hn|Hn] end; try contradiction; discriminate. }
  apply names_get. rewrite names_get in Ha.
  rewrite (only_changed_get _ _ _ _ F') by (apply W; left; reflexivity).
  rewrite (only_changed_get _ _ _ _ F') in Ha by (apply W; right; left; reflexivity).
  exact (c53_hint E K hdr d d' H Ha).
Qed.

Lemma met : forall E K hdr c d d' arg k x, In (c, arg, k) expects -> verify E K hdr c d = (d', Ok true) ->
  kget K arg = Some (VStr x) -> exists v, dget d k = Some v /\ as_expected k v x.
Proof.
  intros E K hdr c d d' arg k x Hin H Hx. unfold expects in Hin. cbn [In] in Hin.
  assert (S : d' = d -> verify E K hdr c d = (d, Ok true)) by (intros ->; exact H).
  assert (Hd : d' = d).
  { destruct Hin as [X|[X|[X|[X|[X|[X|[]]]]]]]; injection X as <- <- <-.
    all: match type of H with verify ?E ?K ?h ?c ?d = _ => change (verify E K h c d) with (d, snd (verify E K h c d)) in H end; congruence. }
  specialize (S Hd). clear H Hd.
  destruct Hin as [X|[X|[X|[X|[X|[X|[]]]]]]]; injection X as <- <- <-.
  - apply c34 in S. destruct S as [Hs R]. destruct (required_here d (u "iss") Hs) as [v Hv]; [left; reflexivity|].
    exists v. split; [exact Hv|]. unfold as_expected. change (ueqb (u "iss") (u "aud")) with false. cbv iota.
    apply py_eq_str_l. exact (r_iss _ _ _ R _ _ Hx Hv).
  - apply c34 in S. destruct S as [Hs R]. destruct (required_here d (u "aud") Hs) as [v Hv]; [right; right; left; reflexivity|].
    exists v. split; [exact Hv|]. unfold as_expected. rewrite (proj2 (ueqb_eq _ _) eq_refl). exact (r_aud _ _ _ R _ _ Hv Hx).
  - apply c39 in S; [|reflexivity]. destruct S as [Ht R].
    destruct (req_present (cdef C_oidc_AuthnToken) d (u "iss") _ Ht ltac:(vm_compute; reflexivity) ltac:(discriminate) eq_refl ltac:(discriminate)) as [v [Hv _]].
    exists v. split; [exact Hv|]. unfold as_expected. change (ueqb (u "iss") (u "aud")) with false. cbv iota.
    apply py_eq_str_l. exact (j_iss _ _ _ R _ _ Hx Hv).
  - apply c39 in S; [|reflexivity]. destruct S as [Ht R].
    destruct (req_present (cdef C_oidc_AuthnToken) d (u "aud") _ Ht ltac:(vm_compute; reflexivity) ltac:(discriminate) eq_refl ltac:(discriminate)) as [v [Hv _]].
    exists v. split; [exact Hv|]. unfold as_expected. rewrite (proj2 (ueqb_eq _ _) eq_refl). exact (j_aud _ _ _ R _ _ Hv Hx).
  - destruct (c51_required E K hdr d (u "iss") S) as [v [Hv _]]; [left; reflexivity|]. apply c51 in S. destruct S as [_ R].
    exists v. split; [exact Hv|]. unfold as_expected. change (ueqb (u "iss") (u "aud")) with false. cbv iota.
    apply py_eq_str_l. exact (l_iss _ _ _ _ R _ _ Hx Hv).
  - destruct (c51_required E K hdr d (u "aud") S) as [v [Hv _]]; [right; left; reflexivity|]. apply c51 in S. destruct S as [_ R].
    exists v. split; [exact Hv|]. unfold as_expected. rewrite (proj2 (ueqb_eq _ _) eq_refl). exact (l_aud _ _ _ _ R _ _ Hv Hx).
Qed.
