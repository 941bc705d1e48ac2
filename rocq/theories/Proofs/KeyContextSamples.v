(** A key jar for the examples of C160: keys are numbers by their type, the export of an owner is the list of them. *)
From Coq Require Import List NArith ZArith Bool String.
From Verif Require Import Base.Ustr Model.Cls Model.Value Model.Config Model.Tenants Model.KeyContext Spec.KeyContextSpec Proofs.ValueLemmas.
Import ListNotations.
Open Scope list_scope.
Open Scope N_scope.

Definition tj_keys (j : dict (list N)) (o : ustr) : list N := match dget j o with Some l => l | None => [] end.
Definition tj_add (j : dict (list N)) (o : ustr) (l : list N) : dict (list N) := dset j o (tj_keys j o ++ l).
Definition tj_type (v : value) : N :=
  match v with VDict d => match dget d (u "kty") with Some t => if py_eq t (VStr (u "RSA")) then 1 else if py_eq t (VStr (u "oct")) then 2 else 3 | None => 3 end | _ => 3 end.
Definition toy_jar : jars (dict (list N)) := {|
  j_init := fun args _ => match dget args (u "key_defs") with Some (VList l) => Ok (tj_add [] [] (map tj_type l)) | _ => Err ETypeError end;
  j_new := fun _ => [];
  j_import := fun j v o => match v with
                           | VDict d => match dget d (u "keys") with Some (VList l) => Ok (tj_add j o (map tj_type l)) | _ => Err EValueError end
                           | _ => Err EValueError
                           end;
  j_has := fun j o => negb (ueqb (tj_keys j o) []);
  j_export := fun j o => Ok (tj_keys j o);
  j_import_json := fun j t o => Ok (tj_add j o t);
  j_httpc := fun j _ => j |}.
Lemma toy_holds : holds toy_jar tj_keys.
Proof.
  constructor; cbn [toy_jar j_has j_export j_import_json j_httpc].
  - intros j o. destruct (tj_keys j o) as [|k r]; cbn; split; intro H; congruence.
  - intros j a t b j' H1 H2 o. injection H1 as <-. injection H2 as <-. unfold tj_add. unfold tj_keys at 1.
    destruct (ueqb o b) eqn:E.
    + apply ueqb_eq in E. subst o. rewrite dget_dset_same. reflexivity.
    + rewrite dget_dset_other by (intros ->; rewrite ueqb_refl in E; discriminate). reflexivity.
  - reflexivity.
Qed.
Lemma toy_moves : moves toy_jar.
Proof. intros j a b. do 2 eexists. split; reflexivity. Qed.
(** the configuration of test_12_context.py *)
Definition kc_section (h dir : string) : value := VDict [(u "handler", VStr (u h)); (u "fdir", VStr (u dir))].
Definition kc_conf : dict value :=
  [(u "issuer", VStr (u "https://example.com"));
   (u "db_conf", VDict [(u "keyjar", kc_section "m.Labeled" "db/keyjar"); (u "default", kc_section "m.Files" "db")])].
Definition kc_keys : dict value :=
  kc_conf ++ [(u "keys", VDict [(u "uri_path", VStr (u "static")); (u "key_defs", VList [VDict [(u "type", VStr (u "EC"))]; VDict [(u "kty", VStr (u "RSA"))]])])].
