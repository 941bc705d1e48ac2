(** C160: the key jar and the boxes of a context. *)
From Coq Require Import List NArith ZArith Bool String.
From Verif Require Import Base.Ustr Model.Cls Model.Value Model.Config Model.Tenants Model.KeyContext Spec.KeyContextSpec
  Proofs.KeyContextLemmas Proofs.KeyContextSamples.
Import ListNotations.
Open Scope list_scope.
Open Scope N_scope.

(** A key jar that is given is the one of the context; nothing but the configuration of the storages and the issuer
    then matters, and no function of a key jar is called. *)
Theorem C160_given_jar : forall J (X X' : jars J) kj c1 c2 e1 e2, dget c1 (u "db_conf") = dget c2 (u "db_conf") -> dget c1 (u "issuer") = dget c2 (u "issuer") ->
  ctx_init X (Some kj) c1 e1 = ctx_init X' (Some kj) c2 e2 /\ (forall x, ctx_init X (Some kj) c1 e1 = Ok x -> dget x (u "keyjar") = Some (AJar kj)).
Proof. exact @given_jar. Qed.
Print Assumptions C160_given_jar.

(** The keys come from "keys" if it is there, whatever "jwks" says, from "jwks" otherwise; "uri_path" and "storage" of
    "keys" are not passed on. *)
Theorem C160_source : forall J (X : jars J) config s,
  (forall ks, dget config (u "keys") = Some (VDict ks) ->
     exists args, first_jar X config s = j_init X args s /\ forall k, dget args k = if umem k [u "uri_path"; u "storage"] then None else dget ks k) /\
  (forall jwks, dget config (u "keys") = None -> dget config (u "jwks") = Some jwks -> first_jar X config s = j_import X (j_new X s) jwks []) /\
  (dget config (u "keys") = None -> dget config (u "jwks") = None -> first_jar X config s = Ok (j_new X s)).
Proof. exact @jar_source. Qed.
Print Assumptions C160_source.

(** "keys" that are no dictionary raise an AttributeError. *)
Theorem C160_source_type : forall J (X : jars J) config s v, dget config (u "keys") = Some v -> (forall d, v <> VDict d) -> first_jar X config s = Err EAttributeError.
Proof. exact @jar_no_dictionary. Qed.
Print Assumptions C160_source_type.

(** Parameters for HTTP clients are given to the key jar that there would be without them, unless they are empty. *)
Theorem C160_httpc : forall J (X : jars J) config e, let c' := ddel config (u "httpc_params") in
  (forall p, dget config (u "httpc_params") = Some p -> truthy p = true ->
     ctx_keyjar X None config e = (do kj <- ctx_keyjar X None c' e ; Ok (j_httpc X kj p))) /\
  ((forall p, dget config (u "httpc_params") = Some p -> truthy p = false) -> ctx_keyjar X None config e = ctx_keyjar X None c' e).
Proof. exact @without_httpc. Qed.
Print Assumptions C160_httpc.

(** In the key jar of a context the owner's keys are found under the owner's name as well, after those that were there
    already, and everything else is as the sources made it. *)
Theorem C160_own_name : forall J K (X : jars J) (keys : J -> ustr -> list K), holds X keys ->
  forall config e kj s j0, ctx_keyjar X None config e = Ok kj -> ctx_key_storage config = Ok s -> first_jar X config s = Ok j0 ->
  forall o, keys kj o = if ueqb o e && negb (ueqb e []) then keys j0 e ++ keys j0 [] else keys j0 o.
Proof. exact @own_name. Qed.
Print Assumptions C160_own_name.

(** The key jar is made whenever its storage and the first key jar are. *)
Theorem C160_made : forall J (X : jars J) config e s j0, moves X -> ctx_key_storage config = Ok s -> first_jar X config s = Ok j0 ->
  exists kj, ctx_keyjar X None config e = Ok kj.
Proof. exact @made. Qed.
Print Assumptions C160_made.

Example C160_case : holds toy_jar tj_keys /\ moves toy_jar /\
  (exists s j0, ctx_key_storage kc_keys = Ok s /\ first_jar toy_jar kc_keys s = Ok j0) /\
  ctx_keyjar toy_jar None kc_keys (u "https://example.com") = Ok [([], [3; 1]); (u "https://example.com", [3; 1])] /\
  ctx_keyjar toy_jar None kc_keys [] = Ok [([], [3; 1])] /\
  ctx_keyjar toy_jar None kc_conf (u "https://example.com") = Ok [] /\
  ctx_keyjar toy_jar (Some [([], [2])]) kc_keys (u "https://example.com") = Ok [([], [2])].
Proof.
  split; [exact toy_holds|]. split; [exact toy_moves|]. split; [do 2 eexists; split; vm_compute; reflexivity|].
  repeat split; vm_compute; reflexivity.
Qed.

(** add_boxes gives every named attribute the storage of its section ... *)
Theorem C160_boxes : forall J boxes c (x : dict (attr (J := J))), NoDup (map snd boxes) ->
  (forall x', add_boxes x boxes c = (x', Ok tt) -> forall key a, In (key, a) boxes -> exists n s, a = VStr n /\ init_storage c key = Ok s /\ dget x' n = Some (AStorage s)) /\
  ((forall key a, In (key, a) boxes -> exists n s, a = VStr n /\ init_storage c key = Ok s) -> exists x', add_boxes x boxes c = (x', Ok tt)).
Proof. exact boxes_set. Qed.
Print Assumptions C160_boxes.

(** ... and leaves the other attributes alone, also when it fails. *)
Theorem C160_boxes_others : forall J (x : dict (attr (J := J))) boxes c k, ~ In (VStr k) (map snd boxes) -> dget (fst (add_boxes x boxes c)) k = dget x k.
Proof. exact boxes_names. Qed.
Print Assumptions C160_boxes_others.

Example C160_case_boxes :
  let x := [(u "db", AStorage (J := unit) (InMemory (u "default")))] in
  let c := VDict [(u "state", kc_section "m.Files" "db/state")] in
  add_boxes x [(u "state", VStr (u "state_db")); (u "other", VStr (u "cache"))] c =
    ([(u "db", AStorage (InMemory (u "default"))); (u "state_db", AStorage (Handler (VStr (u "m.Files")) [(u "fdir", VStr (u "db/state"))]));
      (u "cache", AStorage (InMemory (u "other")))], Ok tt) /\
  snd (add_boxes x [(u "state", VStr (u "state_db"))] (VDict [(u "state", VStr (u "m.Files"))])) = Err EAttributeError.
Proof. split; vm_compute; reflexivity. Qed.
Example C160_case_source : dget [(u "keys", VList [])] (u "keys") = Some (VList []) /\ first_jar toy_jar [(u "keys", VList [])] None = Err EAttributeError /\
  truthy (VDict [(u "verify", VBool false)]) = true /\
  ctx_keyjar toy_jar None ((u "httpc_params", VDict [(u "verify", VBool false)]) :: kc_keys) [] = Ok (j_httpc toy_jar [([], [3; 1])] (VDict [(u "verify", VBool false)])).
Proof. repeat split; vm_compute; reflexivity. Qed.
