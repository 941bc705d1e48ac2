(** Helpers for running the test suite of the repository on the model (Tests/*.v, generated by tools/mktests.py).
    These are tests of the model, not proofs of properties. *)
From Coq Require Import List NArith ZArith QArith Bool String.
From Verif Require Import Base.Ustr Base.Percent Model.Cls Model.Value Model.Pspec Model.Tables Model.Json Model.Message Model.Env Model.Verify
  Model.Jose Model.Dispatch.
Import ListNotations.
Open Scope list_scope.
Open Scope N_scope.

Definition all (l : list bool) : bool := forallb (fun b => b) l.
Definition raises {A} (e : exn) (r : res A) : bool := match r with Err x => if exn_eq_dec x e then true else false | Ok _ => false end.
Definition keep {A} (r : dict value * res A) : res (dict value) := match r with (d, Ok _) => Ok d | (_, Err e) => Err e end.
(** [assert m.verify()], [assert m.verify() is False], the content afterwards *)
Definition yes (r : dict value * res bool) : bool := match r with (_, Ok b) => b | _ => false end.
Definition no (r : dict value * res bool) : bool := match r with (_, Ok b) => negb b | _ => false end.
(** a call that returns something *)
Definition runs (r : dict value * res bool) : bool := is_ok (snd r).

(** C().deserialize(text, "json"), "urlencoded", "dict" *)
Definition read_json (C : clsdef) (s : ustr) : res (dict value) := do d <- construct C [] ; keep (deserialize C d (VStr s) (u "json")).
Definition read_url (C : clsdef) (s : ustr) : res (dict value) := do d <- construct C [] ; keep (deserialize C d (VStr s) (u "urlencoded")).
Definition read_dict (C : clsdef) (v : value) : res (dict value) := do d <- construct C [] ; keep (deserialize C d v (u "dict")).
Definition url (C : clsdef) (d : dict value) : res ustr := to_urlencoded C false d.

Definition subset (a b : list ustr) : bool := forallb (fun x => umem x b) a.
Definition same (a b : list ustr) : bool := subset a b && subset b a.
Definition keys_are (r : res (dict value)) (l : list ustr) : bool := match r with Ok d => same (dkeys d) l | Err _ => false end.
Definition item_is (r : res (dict value)) (k : ustr) (v : value) : bool :=
  match r with Ok d => match dget d k with Some x => py_eq x v | None => false end | Err _ => false end.
Definition has (r : res (dict value)) (k : ustr) : bool := match r with Ok d => dhas d k | Err _ => false end.
Definition value_is (r : res value) (v : value) : bool := match r with Ok x => py_eq x v | Err _ => false end.
(** the content of a message in a message *)
Definition inner (r : res (dict value)) (k : ustr) : res (dict value) :=
  do d <- r ; match dget d k with Some (VMsg _ x) | Some (VDict x) => Ok x | _ => Err EKeyError end.
Definition nth_inner (n : nat) (r : res (dict value)) (k : ustr) : res (dict value) :=
  do d <- r ; match dget d k with
              | Some (VList l) => match nth_error l n with Some (VMsg _ x) | Some (VDict x) => Ok x | _ => Err EKeyError end
              | _ => Err EKeyError
              end.
Definition length_is (r : res (dict value)) (k : ustr) (n : nat) : bool :=
  match r with Ok d => match dget d k with Some (VList l) => Nat.eqb (List.length l) n | _ => false end | Err _ => false end.
Definition class_is (r : res (dict value)) (k : ustr) (c : cls) : bool :=
  match r with Ok d => match dget d k with Some (VMsg x _) => if cls_eq_dec x c then true else false | _ => false end | Err _ => false end.
Definition made (r : res (option (cls * dict value))) (c : cls) : bool :=
  match r with Ok (Some (x, _)) => if cls_eq_dec x c then true else false | _ => false end.
Definition content (r : res (option (cls * dict value))) : res (dict value) := match r with Ok (Some (_, d)) => Ok d | _ => Err EKeyError end.

(** query_string_compare of the tests *)
Definition query (s : ustr) : value := VDict (map (fun kv : ustr * list ustr => (fst kv, VList (map VStr (snd kv)))) (parse_qs s)).
Definition same_query (r : res ustr) (s : ustr) : bool := match r with Ok t => py_eq (query t) (query s) | Err _ => false end.
Definition same_splits (r : res ustr) (s : ustr) : bool := match r with Ok t => same (split_on 38 t) (split_on 38 s) | Err _ => false end.
Fixpoint prefix (a s : ustr) : bool := match a, s with [], _ => true | x :: a, y :: s => (x =? y) && prefix a s | _, _ => false end.
Fixpoint substring (a s : ustr) : bool := prefix a s || match s with [] => false | _ :: r => substring a r end.
Definition contains (r : res ustr) (a : ustr) : bool := match r with Ok s => substring a s | Err _ => false end.

(** keyword arguments of verify(), without and with a key jar *)
Definition args (l : dict value) : kwargs := {| kw := l; kw_jar := false |}.
Definition jargs (l : dict value) : kwargs := {| kw := l; kw_jar := true |}.

(** Crypto of the tests: a signed text carries key and algorithm in front of the payload; the key jar has key 7 for
    the [owners], which signs and verifies. *)
Definition toy_sign (text alg : ustr) (k : N) : ustr := 83 :: k :: N.of_nat (List.length alg) :: alg ++ text.
Definition signer : jose := {|
  j_sign := fun text alg keys => match keys with k :: _ => Ok (toy_sign text alg k) | [] => Err ENoSuitableSigningKeys end;
  j_encrypt := fun text enc alg keys => match keys with [] => Err ECrypto | _ => Ok (69 :: text) end;
  j_decrypt := fun tok keys => match keys, tok with _ :: _, 69 :: text => Ok text | _, _ => Err ECrypto end |}.
Definition toy_token (s : ustr) : option token :=
  match s with
  | 83 :: _ :: n :: r => Some {| t_hdr := [(u "alg", VStr (firstn (N.to_nat n) r))]; t_body := json_loads (skipn (N.to_nat n) r) |}
  | _ => None
  end.
Definition issuer_of (t : token) : value := match t_body t with Ok (VDict d) => match dget d (u "iss") with Some v => v | None => VStr [] end | _ => VStr [] end.
Definition kj_env (now : Z) (owners : list ustr) : env := {|
  e_now := now;
  e_jws := fun v => match v with VStr s => Ok (toy_token s) | _ => Err ETypeError end;
  e_jwe := fun _ t _ => match t with 69 :: r => Ok (Some r) | _ => Ok None end;
  e_kj_true := true;
  e_kj_in := fun v => Ok (existsb (fun o => py_eq v (VStr o)) owners);
  e_kj_keys := fun _ _ t _ => Ok (if existsb (fun o => py_eq (issuer_of t) (VStr o)) owners then [7] else []);
  e_kj_update := fun _ => Ok tt;
  e_sig := fun t a keys =>
    match t with
    | 83 :: k :: n :: r => if existsb (N.eqb k) keys then (if truthy a && negb (py_eq a (VStr (firstn (N.to_nat n) r))) then Err ECrypto else Ok tt) else Err ECrypto
    | _ => Err ECrypto
    end;
  e_lhash := fun v h => match v with VStr s => Ok (VStr (h ++ u ":" ++ s)) | _ => Err EAttributeError end;
  e_repr := fun _ => Err EAttributeError;
  e_netloc_ok := fun _ => true |}.
Definition no_env : env := kj_env 1600000000 [].
(** JWT(keyjar, sign_alg="HS256", iss=iss, lifetime=3600).pack(payload) of cryptojwt at the time [now] *)
Definition packed (now : Z) (iss : list (ustr * value)) (payload : dict value) : ustr :=
  match json_dumps (VDict (payload ++ iss ++ [(u "iat", VInt now); (u "exp", VInt (now + 3600))])) with Ok t => toy_sign t (u "HS256") 7 | Err _ => [] end.
