(** C17: the instances of a class do not share mutable state. *)
From Coq Require Import List NArith ZArith Bool String.
From Verif Require Import Base.Ustr Model.Cls Model.Value Model.Pspec Model.Tables Model.Message Model.Heap
  Spec.HeapSpec Proofs.HeapLemmas.
Import ListNotations.
Open Scope list_scope.

(** C17 is false of the code: the list in [c_default] of a class is the list of each instance that
    was not given one.  Changing it in place changes the other instances and the ones made later. *)
Theorem C17_shared_default_refuted : forall C k l0 l, dget (cd_default C) k = Some (VList l0) ->
  let W := run C (start C) [New true []; New true []] in
  look W 0 k = Some (VList l0) /\ look W 1 k = Some (VList l0) /\
  let V := step C W (Change 0 k l) in
  look V 1 k = Some (VList l) /\ look (step C V (New true [])) 2 k = Some (VList l).
Proof. exact shared_default. Qed.
Print Assumptions C17_shared_default_refuted.

Example C17_shared_case : let C := cdef C_oidc_RegistrationRequest in
  let code := VStr (u "code") in
  let W := run C (start C) [New true []; New true []; Change 0 (u "response_types") [code; VStr (u "token")]; New true []] in
  dget (cd_default C) (u "response_types") = Some (VList [code]) /\
  look W 1 (u "response_types") = Some (VList [code; VStr (u "token")]) /\
  look W 2 (u "response_types") = Some (VList [code; VStr (u "token")]).
Proof. vm_compute. auto. Qed.

(** What holds (1): in any history the lists of parameters without a list as default belong to one instance. *)
Theorem C17_plain_parameter_partial : forall C h i k l, (forall l0, dget (cd_default C) k <> Some (VList l0)) ->
  only C (run C (start C) h) (step C (run C (start C) h) (Change i k l)) i k.
Proof. intros C h i k l H. apply scalar_default_only. intros [l0 E]. exact (H l0 E). Qed.
Print Assumptions C17_plain_parameter_partial.

(** What holds (2): a list that was given to an instance, to the constructor or by an assignment,
    belongs to it as long as the parameter is not deleted. *)
Theorem C17_given_value_partial : forall C h1 o h2 i k l,
  let W := run C (start C) h1 in
  gives C W o i k -> (i < List.length (w_inst (step C W o)))%nat -> ~ In (Del i k) h2 ->
  let V := run C (step C W o) h2 in only C V (step C V (Change i k l)) i k.
Proof. exact given_only. Qed.
Print Assumptions C17_given_value_partial.

(** The instances of the histories are the messages of the model of message.py. *)
Theorem C17_new_instance_partial : forall C kw, dhas kw (u "self") = false -> dhas kw (u "set_defaults") = false ->
  forall k, look (step C (start C) (New true kw)) 0 k = match construct C kw with Ok d => dget d k | Err _ => None end.
Proof. exact new_shows. Qed.
Print Assumptions C17_new_instance_partial.

Example C17_cases : let C := cdef C_oidc_RegistrationRequest in
  let uris := VList [VStr (u "https://a.example/cb")] in let code := VStr (u "code") in
  let h := [New true [(u "redirect_uris", uris)]; New true [(u "redirect_uris", uris); (u "response_types", VStr (u "code"))]] in
  let W := run C (start C) h in
  (forall l0, dget (cd_default C) (u "redirect_uris") <> Some (VList l0)) /\
  look (step C W (Change 0 (u "redirect_uris") [])) 0 (u "redirect_uris") = Some (VList []) /\
  look (step C W (Change 0 (u "redirect_uris") [])) 1 (u "redirect_uris") = Some uris /\
  gives C (run C (start C) [New true [(u "redirect_uris", uris)]]) (New true [(u "redirect_uris", uris); (u "response_types", VStr (u "code"))]) 1 (u "response_types") /\
  look (step C W (Change 1 (u "response_types") [])) 1 (u "response_types") = Some (VList []) /\
  look (step C W (Change 1 (u "response_types") [])) 0 (u "response_types") = Some (VList [code]).
Proof.
  cbv zeta. split; [intro; vm_compute; discriminate|]. do 2 (split; [vm_compute; reflexivity|]). split; [|split; vm_compute; reflexivity].
  split; [vm_compute; reflexivity|]. split; [vm_compute; discriminate|]. exists (VStr (u "code")), (VList [VStr (u "code")]).
  split; [right; left; reflexivity|vm_compute; reflexivity].
Qed.
