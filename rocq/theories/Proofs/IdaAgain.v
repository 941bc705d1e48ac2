(** verify() once more on a request for verified claims. *)
From Coq Require Import List NArith ZArith Bool String.
From Verif Require Import Base.Ustr Base.UstrLemmas Model.Cls Model.Value Model.Pspec Model.Tables Model.Json Model.Message Model.Env Model.IdentityAssurance Model.Verify
  Spec.MessageSpec Spec.VerifySpec Spec.AgainSpec
  Proofs.ValueLemmas Proofs.MessageLemmas Proofs.IdaLemmas Proofs.VerifyLemmas Proofs.AgainLemmas.
Import ListNotations.
Open Scope list_scope.
Open Scope N_scope.

(** entries that are stored as they are *)
Definition kept (L : lib) (P : dict pspec) (d : dict value) : Prop := forall k x, In (k, x) d -> fd_entry L P k x = Ok (Some x).
Lemma dset_entries : forall (d : dict value) k v k' x, In (k', x) (dset d k v) -> (k' = k /\ x = v) \/ In (k', x) d.
Proof.
  induction d as [|[k0 v0] d IH]; intros k v k' x H.
  - destruct H as [H|[]]. injection H as <- <-. left. split; reflexivity.
  - cbn [dset] in H. destruct (ueqb k k0) eqn:E.
    + destruct H as [H|H]; [injection H as <- <-; apply ueqb_eq in E; left; split; congruence|right; right; exact H].
    + destruct H as [H|H]; [right; left; exact H|]. destruct (IH _ _ _ _ H) as [A|A]; [left; exact A|right; right; exact A].
Qed.
Lemma all_kept : forall L P, (forall k v x, fd_entry L P k v = Ok (Some x) -> fd_entry L P k x = Ok (Some x)) ->
  forall l d, kept L P d -> kept L P (fst (from_items L P d l)).
Proof.
  intros L P I. induction l as [|[k v] l IH]; intros d H; [exact H|]. cbn [from_items].
  destruct (fd_entry L P k v) as [[x|]|e] eqn:E; [|apply IH, H|exact H]. apply IH. intros k' x' H'.
  apply dset_entries in H'. destruct H' as [[-> ->]|H']; [eapply I, E|exact (H _ _ H')].
Qed.
Lemma read_kept : forall L P l d, NoDup (map fst (d ++ l)) -> kept L P l -> from_items L P d l = (d ++ l, Ok tt).
Proof.
  intros L P. induction l as [|[k v] l IH]; intros d N H; [rewrite app_nil_r; reflexivity|]. cbn [from_items].
  rewrite (H k v) by (left; reflexivity). rewrite dset_new.
  - assert (A : (d ++ [(k, v)]) ++ l = d ++ (k, v) :: l) by (rewrite <- app_assoc; reflexivity).
    rewrite IH, A; [reflexivity|rewrite A; exact N|]. intros k' x' H'. apply H. right. exact H'.
  - rewrite map_app in N. intro A. apply NoDup_remove_2 in N. apply N, in_or_app. left. exact A.
Qed.

(** the entries of a request for verified claims *)
Lemma message_entry : forall s v x, (exists c, p_typ s = TMsg c) -> p_deser s = Some DeMsg -> add_val the_lib s v = Ok (Some x) ->
  (x = VNone \/ exists c m, x = VMsg c m) /\ add_val the_lib s x = Ok (Some x).
Proof.
  intros s v x [c T] D H.
  assert (A : x = VNone \/ exists c m, x = VMsg c m).
  { unfold add_val in H. rewrite T, D in H. cbv zeta in H.
    destruct (_ && negb (p_null s)); [discriminate|].
    destruct v as [|b|z|q|t|l|o|c' m]; try discriminate; try (injection H as <-; left; reflexivity); cbn [isinstance] in H.
    all: try (right; destruct (l_deser the_lib DeMsg _ Fdict) as [y|e] eqn:E; cbn [decode_err bind] in H; [|destruct (artefact e); discriminate];
      injection H as <-; change (l_deser the_lib DeMsg) with (de_msg (lib_n 11) C_Message) in E; unfold de_msg in E).
    all: try (destruct (json_dumps _) as [t|e]; cbn [bind] in E; [|discriminate]).
    all: try (unfold deser_cls in E; destruct (ret_msg _) as [m|e]; cbn [bind] in E; [|discriminate]; injection E as <-; eauto).
    destruct (subclass c' c); [injection H as <-; right; eauto|].
    change (l_deser the_lib DeMsg (VMsg c' m) Fdict) with (Ok (VMsg c' m)) in H. cbn [decode_err bind] in H. injection H as <-. right. eauto. }
  split; [exact A|]. destruct A as [->|(c' & m & ->)]; unfold add_val; rewrite T; cbv zeta; cbn [andb]; [reflexivity|].
  destruct (isinstance (VMsg c' m) (TMsg c)); [reflexivity|]. rewrite D.
  change (l_deser the_lib DeMsg (VMsg c' m) Fdict) with (Ok (VMsg c' m)). reflexivity.
Qed.
Lemma request_entry : forall k v x, fd_entry the_lib (cd_param (cdef C_ida_VerifiedClaimsRequest)) k v = Ok (Some x) ->
  fd_entry the_lib (cd_param (cdef C_ida_VerifiedClaimsRequest)) k x = Ok (Some x).
Proof.
  intros k v x. unfold fd_entry. destruct (is_blank v) eqn:B; [discriminate|].
  assert (S : forall k' s, dget (cd_param (cdef C_ida_VerifiedClaimsRequest)) k' = Some s -> (exists c, p_typ s = TMsg c) /\ p_deser s = Some DeMsg).
  { intros k' s H. apply dget_In in H. destruct H as [H|[H|[]]]; injection H as <- <-; (split; [eexists; reflexivity|reflexivity]). }
  assert (N : forall s, (exists c, p_typ s = TMsg c) -> p_deser s = Some DeMsg -> add_val the_lib s v = Ok (Some x) -> is_blank x = false /\ add_val the_lib s x = Ok (Some x)).
  { intros s H1 H2 H. destruct (message_entry s v x H1 H2 H) as [[->|(c & m & ->)] A]; (split; [reflexivity|exact A]). }
  destruct (dget (cd_param (cdef C_ida_VerifiedClaimsRequest)) k) as [s|] eqn:E1.
  { intro H. destruct (S _ _ E1) as [S1 S2]. destruct (N s S1 S2 H) as [-> A]. exact A. }
  destruct (dget (cd_param (cdef C_ida_VerifiedClaimsRequest)) (base_key k)) as [s|] eqn:E2.
  { intro H. destruct (S _ _ E2) as [S1 S2]. destruct (N s S1 S2 H) as [-> A]. exact A. }
  replace (dget (cd_param (cdef C_ida_VerifiedClaimsRequest)) (u "*")) with (@None pspec) by reflexivity.
  intro H. injection H as <-. rewrite B. reflexivity.
Qed.
Lemma request_made_again : forall kws m, construct (cdef C_ida_VerifiedClaimsRequest) kws = Ok m ->
  construct (cdef C_ida_VerifiedClaimsRequest) m = Ok m.
Proof.
  intros kws m H. unfold construct, construct_gen in *. destruct (dhas kws (u "self")) eqn:Es; [discriminate|]. cbv zeta in *.
  assert (Z : cd_default (cdef C_ida_VerifiedClaimsRequest) = []) by reflexivity. rewrite Z in *.
  assert (H' : ret_msg (from_items the_lib (cd_param (cdef C_ida_VerifiedClaimsRequest)) [] (ddel kws (u "set_defaults"))) = Ok m)
    by (destruct (dget kws (u "set_defaults")) as [b|]; [destruct (truthy b)|]; exact H).
  clear H. rename H' into H.
  destruct (from_items the_lib (cd_param (cdef C_ida_VerifiedClaimsRequest)) [] (ddel kws (u "set_defaults"))) as [m' [x|e]] eqn:E; [|discriminate].
  cbn [ret_msg] in H. injection H as ->.
  assert (N : NoDup (map fst m)).
  { pose proof (from_items_nodup the_lib (cd_param (cdef C_ida_VerifiedClaimsRequest)) (ddel kws (u "set_defaults")) []) as A. rewrite E in A. apply A. constructor. }
  assert (K : kept the_lib (cd_param (cdef C_ida_VerifiedClaimsRequest)) m).
  { pose proof (all_kept the_lib (cd_param (cdef C_ida_VerifiedClaimsRequest)) request_entry (ddel kws (u "set_defaults")) []) as A. rewrite E in A. apply A. intros k y []. }
  assert (S0 : dhas m (u "self") = false).
  { apply dhas_false. pose proof (from_items_other the_lib (cd_param (cdef C_ida_VerifiedClaimsRequest)) (ddel kws (u "set_defaults")) [] (u "self")) as A.
    rewrite E in A. apply A. apply dget_None. rewrite dget_ddel. replace (ueqb (u "self") (u "set_defaults")) with false by reflexivity. apply dhas_false, Es. }
  assert (Hd : dget m (u "set_defaults") = None).
  { pose proof (from_items_other the_lib (cd_param (cdef C_ida_VerifiedClaimsRequest)) (ddel kws (u "set_defaults")) [] (u "set_defaults")) as A.
    rewrite E in A. apply A. apply dget_None. rewrite dget_ddel, ueqb_refl. reflexivity. }
  rewrite S0, Hd.
  assert (F : ddel m (u "set_defaults") = m).
  { clear - Hd. unfold ddel. induction m as [|[k v] m IH]; [reflexivity|]. cbn [dget] in Hd. cbn [filter fst].
    destruct (ueqb (u "set_defaults") k) eqn:E; [discriminate|]. cbn [negb]. rewrite IH by exact Hd. reflexivity. }
  rewrite F, read_kept; [reflexivity|exact N|exact K].
Qed.

Lemma ida_again : forall c d d' r, c = C_ida_IDAClaimsRequest -> ida_claims_verify (cdef c) d = (d', r) -> ida_claims_verify (cdef c) d' = (d', r).
Proof.
  intros c d d' r -> H. pose proof H as H0. unfold ida_claims_verify in H.
  destruct (verify_base (cdef C_ida_IDAClaimsRequest) d) as [b|e] eqn:Eb; [|injection H as <- <-; exact H0]. cbv zeta in H.
  destruct (truthy (get d (u "verified_claims") VNone)) eqn:Et; [|injection H as <- <-; exact H0].
  destruct (match get d (u "verified_claims") VNone with VDict kws | VMsg _ kws => construct (cdef C_ida_VerifiedClaimsRequest) kws | _ => Err ETypeError end)
    as [m|e] eqn:Em; [|injection H as <- <-; exact H0].
  destruct (request_verify (cdef C_ida_VerifiedClaimsRequest) C_ida_VerifiedClaims m) as [b'|e] eqn:Er; [|injection H as <- <-; exact H0].
  unfold setitem in H. replace (dget (cd_param (cdef C_ida_IDAClaimsRequest)) (u "verified_claims")) with (@None pspec) in H by reflexivity.
  injection H as <- <-.
  assert (Hm : construct (cdef C_ida_VerifiedClaimsRequest) m = Ok m).
  { destruct (get d (u "verified_claims") VNone); try discriminate; exact (request_made_again _ _ Em). }
  assert (B : verify_base (cdef C_ida_IDAClaimsRequest) (dset d (u "verified_claims") (VMsg C_ida_VerifiedClaimsRequest m)) = Ok b).
  { rewrite <- Eb. unfold verify_base. rewrite (mapM_in _ (fun ks => verify_param (cdef C_ida_IDAClaimsRequest) d (fst ks) (snd ks))); [reflexivity|].
    intros [k s] [H|[H|[]]]; injection H as <- <-; cbn [fst snd]; unfold verify_param; rewrite dget_dset_other by discriminate; reflexivity. }
  unfold ida_claims_verify. rewrite B. cbv zeta. unfold get. rewrite dget_dset_same.
  destruct (truthy (VMsg C_ida_VerifiedClaimsRequest m)); [|reflexivity]. rewrite Hm, Er. unfold setitem.
  replace (dget (cd_param (cdef C_ida_IDAClaimsRequest)) (u "verified_claims")) with (@None pspec) by reflexivity. rewrite dset_dset. reflexivity.
Qed.
Theorem again_all : forall E K hdr c d d' r, (takes_request c = true -> dget d (u "request") = None) ->
  verify E K hdr c d = (d', r) -> verify E K hdr c d' = (d', r).
Proof.
  intros E K hdr c d d' r R H. destruct (subclass c C_ida_IDAClaimsRequest) eqn:S; [|exact (again E K hdr c d d' r S R H)].
  assert (c = C_ida_IDAClaimsRequest) as -> by (destruct c; first [reflexivity|discriminate S]).
  change (ida_claims_verify (cdef C_ida_IDAClaimsRequest) d' = (d', r)). eapply ida_again; [reflexivity|exact H].
Qed.
