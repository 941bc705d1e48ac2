(** Proofs of C161 and C162. *)
From Coq Require Import List NArith ZArith Bool String.
From Verif Require Import Base.Ustr Model.Cls Model.Value Model.Pspec Model.Tables Model.Json Model.Message Model.Config Model.Dispatch Model.Serializers Model.Names
  Spec.JsonSpec Spec.MessageSpec Spec.RoundTripSpec Spec.SerializerSpec Proofs.ValueLemmas Proofs.JsonLemmas Proofs.ConfigLemmas Proofs.Deciders Proofs.RoundTripSamples Proofs.RoundTrip Proofs.SerializerLemmas.
Import ListNotations.
Open Scope list_scope.
Open Scope N_scope.

Lemma found_again : forall M A (imp : ustr -> res M) (get : M -> ustr -> res A) module name m,
  imp module = Ok m -> ~ In 58 module -> ~ In 58 name ->
  (~ In 46 name -> importer imp get (qualified_name module name) = get m name) /\ importer imp get (module ++ u ":" ++ name) = get m name.
Proof.
  intros M A imp get module name m I M1 N1. split.
  - intro N2. unfold importer, qualified_name. rewrite (modsplit_dot module name M1 N1 N2). cbn [bind fst snd]. rewrite I. reflexivity.
  - unfold importer. rewrite (proj1 (modsplit_spec (module ++ u ":" ++ name)) module name eq_refl M1 N1). cbn [bind fst snd]. rewrite I. reflexivity.
Qed.
Lemma no_module : forall M A (imp : ustr -> res M) (get : M -> ustr -> res A) name e,
  (modsplit name = Err e -> importer imp get name = Err e) /\ (forall p, modsplit name = Ok p -> imp (fst p) = Err e -> importer imp get name = Err e).
Proof. intros M A imp get name e. unfold importer. split; [intros ->; reflexivity|intros p -> H; cbn [bind]; rewrite H; reflexivity]. Qed.

Lemma names_apart : forall m n m' n', ~ In 58 (m ++ n ++ m' ++ n') -> ~ In 46 n -> ~ In 46 n' -> qualified_name m n = qualified_name m' n' -> m = m' /\ n = n'.
Proof.
  intros m n m' n' C D D' H. rewrite !in_app_iff in C.
  assert (A : modsplit (qualified_name m n) = Ok (m, n)) by (apply modsplit_dot; tauto).
  assert (B : modsplit (qualified_name m' n') = Ok (m', n')) by (apply modsplit_dot; tauto).
  rewrite H, B in A. injection A as <- <-. split; reflexivity.
Qed.

(** ** tokens *)
Lemma deserialized_json : forall c v, deserialized c v (u "json") = deser_cls the_lib c v Fjson.
Proof.
  intros c v. unfold deserialized, deserialize. replace (ueqb (u "json") (u "urlencoded")) with false by reflexivity.
  replace (ueqb (u "json") (u "dict")) with false by reflexivity. replace (ueqb (u "json") (u "json")) with true by reflexivity. cbv iota.
  unfold deser_cls. destruct (from_json_gen the_lib (cd_param (cdef c)) (cd_default (cdef c)) v) as [d [x|e]]; reflexivity.
Qed.
Lemma read_as_json : forall v, (forall t, v <> VStr t) -> forall f, In f [u "json"; u "dict"; u "urlencoded"] ->
  jwt_deser v f = (do t <- json_dumps v ; deser_cls the_lib C_oidc_JsonWebToken (VStr t) Fjson).
Proof.
  intros v N f H. unfold jwt_deser. assert (E : umem (if ueqb f (u "urlencoded") then u "json" else f) [u "dict"; u "json"] = true)
    by (destruct H as [<-|[<-|[<-|[]]]]; reflexivity).
  rewrite E. destruct v; try (exfalso; eapply N; reflexivity); destruct (json_dumps _) as [t|e]; cbn [bind]; try reflexivity; apply deserialized_json.
Qed.
Lemma text_as_json : forall t f, In f [u "json"; u "urlencoded"] -> jwt_deser (VStr t) f = deser_cls the_lib C_oidc_JsonWebToken (VStr t) Fjson.
Proof. intros t f [<-|[<-|[]]]; apply deserialized_json. Qed.

Lemma token_read : forall d ser f g lev, let c := C_oidc_JsonWebToken in
  writer c ser -> nested_format f g -> content canon (cd_param (cdef c)) d -> covers_defaults (cdef c) d ->
  exists v d', ser (VMsg c d) f lev = Ok v /\ jwt_deser v f = Ok (VMsg c d') /\ jwt_deser v (u "urlencoded") = Ok (VMsg c d') /\ forall x, dget d' x = dget d x.
Proof.
  intros d ser f g lev c W F H1 H2. destruct (round_trip (cdef c) d H1 H2) as (r & t & d' & A1 & A2 & A3 & A4 & A5).
  assert (J : json_dumps (VDict r) = Ok t) by (unfold to_json in A3; rewrite A1 in A3; exact A3).
  apply (from_json_val c) in A4.
  assert (D : forall g', In g' [u "json"; u "dict"; u "urlencoded"] -> jwt_deser (VDict r) g' = Ok (VMsg c d')).
  { intros g' I. rewrite read_as_json; [|discriminate|exact I]. rewrite J. exact A4. }
  destruct F.
  - destruct (writes_json c ser d r t lev W A1 A3) as [E|E]; rewrite E; do 2 eexists; (split; [reflexivity|]).
    + split; [rewrite text_as_json; [exact A4|left; reflexivity]|]. split; [rewrite text_as_json; [exact A4|right; left; reflexivity]|exact A5].
    + split; [apply D; left; reflexivity|]. split; [apply D; do 2 right; left; reflexivity|exact A5].
  - rewrite (writes_dict c ser d r lev W A1). do 2 eexists. split; [reflexivity|]. split; [apply D; right; left; reflexivity|].
    split; [apply D; do 2 right; left; reflexivity|exact A5].
Qed.
Lemma token_text_as_dict : forall t, jwt_deser (VStr t) (u "dict") = Err EAttributeError.
Proof. intro t. reflexivity. Qed.
Lemma token_formats : forall v f, ~ In f [u "urlencoded"; u "dict"; u "json"] ->
  jwt_deser v f = Err (if umem f [u "jwt"; u "jwe"] then ETypeError else EFormatError).
Proof.
  intros v f H. unfold jwt_deser, deserialized, deserialize.
  assert (A : ueqb f (u "urlencoded") = false) by (apply not_true_is_false; intro E; apply ueqb_eq in E; apply H; left; congruence).
  assert (B : ueqb f (u "dict") = false) by (apply not_true_is_false; intro E; apply ueqb_eq in E; apply H; right; left; congruence).
  assert (C : ueqb f (u "json") = false) by (apply not_true_is_false; intro E; apply ueqb_eq in E; apply H; do 2 right; left; congruence).
  rewrite A. cbv zeta.
  replace (umem f [u "dict"; u "json"]) with false by (unfold umem; cbn [existsb]; rewrite B, C; reflexivity).
  rewrite A, B, C. unfold umem. cbn [existsb]. rewrite orb_false_r. destruct (ueqb f (u "jwt") || ueqb f (u "jwe")); reflexivity.
Qed.
Lemma id_token_unread : forall v f, idtoken_deser v f = Err ETypeError.
Proof. intros v f. reflexivity. Qed.

(** ** samples *)
Definition ns_token : dict value := [(u "iss", VStr (u "https://op.example")); (u "exp", VInt 1500); (u "scope", VStr (u "a b"))].
Lemma ns_token_canon : content canon (cd_param (cdef C_oidc_JsonWebToken)) ns_token.
Proof.
  split; [apply nodupb_ok; vm_compute; reflexivity|]. intros k v H. each H; (split; [vm_compute; reflexivity|]);
    spec_of_key; apply CnPlain; first [is_plain|apply PlInt; reflexivity].
Qed.
(** two modules, one with two classes *)
Definition ns_modules (name : ustr) : res (dict nat) :=
  if ueqb name (u "oidcmsg.oidc") then Ok [(u "IdToken", 1%nat); (u "Message", 2%nat)]
  else if ueqb name (u "oidcmsg.message") then Ok [(u "Message", 3%nat)] else Err EOSError.
Definition ns_getattr (m : dict nat) (name : ustr) : res nat := match dget m name with Some c => Ok c | None => Err EAttributeError end.
