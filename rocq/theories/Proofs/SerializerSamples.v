(** Messages for the examples of C159. *)
From Coq Require Import List NArith ZArith Bool String.
From Verif Require Import Base.Ustr Base.Percent Model.Cls Model.Value Model.Pspec Model.Tables Model.Message Model.Serializers
  Spec.JsonSpec Spec.MessageSpec Spec.CodecSpec Spec.RoundTripSpec Spec.SerializerSpec Proofs.ValueLemmas Proofs.Deciders Proofs.RoundTripSamples.
Import ListNotations.
Open Scope list_scope.
Open Scope N_scope.

Definition ss_claims : dict value :=
  [(u "email", VDict [(u "essential", VBool true)]); (u "acr", VDict [(u "value", VStr (u "x=y&z"))]); (u "picture", VNone)].
Lemma ss_claims_canon : content canon (cd_param (cdef C_oidc_Claims)) ss_claims.
Proof.
  split; [apply nodupb_ok; vm_compute; reflexivity|]. intros k v H. each H; (split; [vm_compute; reflexivity|]);
    spec_of_key; apply CnPlain; is_plain.
Qed.
Definition ss_address : dict value := [(u "street_address", VStr (u "Kasamark 114 & co")); (u "country", VStr [233; 49])].
Lemma ss_address_urlable : content urlable (cd_param (cdef C_oidc_AddressClaim)) ss_address.
Proof.
  split; [apply nodupb_ok; vm_compute; reflexivity|]. intros k v H. each H; (split; [vm_compute; reflexivity|]); spec_of_key;
    (apply UrStr; [not_list|reflexivity|vm_compute; reflexivity|discriminate]).
Qed.

Ltac asc := repeat (apply Forall_cons; [vm_compute; split; discriminate|]); try apply Forall_nil.
(** a dictionary with other values than texts *)
Definition ss_values : dict value :=
  [(u "n", VInt (-12)); (u "t", VStr (u "it's"));
   (u "l", VList [VStr (u "a\b"); VStr (u "it's"); VStr (u "it's """); VNone]);
   (u "d", VDict [(u "essential", VBool true); (u "x", VList [])])].
Lemma ss_values_printable : printable_value (VDict ss_values).
Proof.
  constructor. intros k x H. repeat (destruct H as [H|H]; [injection H as <- <-; split; [asc|]|]); [| | | |destruct H].
  - constructor.
  - constructor. asc.
  - constructor. intros x H. repeat (destruct H as [H|H]; [subst x; constructor; asc|]). destruct H.
  - constructor. intros k x H. repeat (destruct H as [H|H]; [injection H as <- <-; split; [asc|]|]); [| |destruct H].
    + constructor.
    + constructor. intros x [].
Qed.
Lemma ss_claims_message : content canon (cd_param (cdef C_Message)) ss_claims.
Proof.
  split; [apply nodupb_ok; vm_compute; reflexivity|]. intros k v H. each H; (split; [vm_compute; reflexivity|]);
    spec_of_key; apply CnPlain; is_plain.
Qed.
