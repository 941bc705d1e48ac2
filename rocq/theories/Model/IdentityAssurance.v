(** src/oidcmsg/oidc/identity_assurance.py: the checks of evidence and of claims requests and the
    class ClaimsConstructor.  Its parameter tables are in Model/Tables.v, its time stamps in
    Model/Calendar.v. *)
From Coq Require Import List NArith ZArith Bool String.
From Verif Require Import Base.Ustr Model.Cls Model.Value Model.Pspec Model.Tables Model.Json Model.Message Model.Env.
Import ListNotations.
Open Scope list_scope.
Open Scope N_scope.

(** error_chars, oauth2/__init__.py:31 *)
Definition error_char (c : N) : bool := is_alpha c || (c =? 32) || (c =? 33).

(** [all(x in error_chars for x in v)], oauth2/__init__.py:49 and identity_assurance.py:437;
    unhashable elements raise TypeError *)
Fixpoint all_error_chars (l : list value) : res bool :=
  match l with
  | [] => Ok true
  | x :: r =>
      match x with
      | VStr [c] => if error_char c then all_error_chars r else Ok false
      | _ => if hashable x then Ok false else Err ETypeError
      end
  end.

(** ** Evidence *)

(** the classes by type, 231-241 *)
Definition evidence_types : list (ustr * cls) :=
  [(u "id_document", C_ida_IdDocument); (u "utility_bill", C_ida_UtilityBill); (u "qes", C_ida_QES)].
(** Evidence.verify, 229-257, which IdDocument, UtilityBill and QES inherit: each of them builds
    another instance from the content and calls the same method on it.  [fuel] bounds the number of
    nested calls (Python raises RecursionError at its limit). *)
Fixpoint evidence_verify (fuel : nat) (c : cls) (d : dict value) : dict value * res bool :=
  match fuel with
  | O => (d, Err OutOfFuel)
  | S fuel =>
      let rebuild c' :=
        do kws <- to_dict (cdef c) d ;
        do m <- construct (cdef c') kws ;
        snd (evidence_verify fuel c' m) in
      let t := get d (u "type") VNone in
      if truthy t then
        match List.find (fun e => py_eq t (VStr (fst e))) evidence_types with
        | Some (_, c') => (d, do _ <- rebuild c' ; Ok false)
        | None => (d, Err EValueError)
        end
      else
        match List.find (fun e => forallb (fun k => dhas d k) (dkeys (cd_param (cdef (snd e))))) evidence_types with
        | Some (n, c') =>
            match rebuild c' with
            | Ok _ => match setitem (cdef c) d (u "type") (VStr n) with
                      | (d', Ok _) => (d', Ok false)
                      | (d', Err e) => (d', Err e)
                      end
            | Err e => (d, Err e)
            end
        | None => (d, Err EValueError)
        end
  end.

(** ** Claims requests *)

(** _correct_value_type, 406-412: the type is a class, so only isinstance counts; a list of types
    is a TypeError *)
Definition correct_value_type (v : value) (t : vtyp) : res bool :=
  match t with TList _ => Err ETypeError | _ => Ok (isinstance v t) end.
(** all values have the type, oidc/identity_assurance.py:406-440 *)
Fixpoint all_types (t : vtyp) (l : list value) : res bool :=
  match l with
  | [] => Ok true
  | x :: r => do b <- correct_value_type x t ; if b then all_types t r else Ok false
  end.
(** the purpose, 433-438 *)
Definition purpose_ok (p : value) : res bool :=
  if truthy p then
    do n <- py_len p ;
    if (n <? 3) || (300 <? n) then Ok false
    else do xs <- py_iter p ; all_error_chars xs
  else Ok true.
(** _verify_claims_request_value, 415-440 *)
Definition claims_value (v : value) (t : vtyp) : res bool :=
  match v with
  | VDict d =>
      let e := get d (u "essential") VNone in
      if negb (existsb (py_eq e) [VNone; VBool true; VBool false]) then Ok false
      else
        let x := get d (u "value") VNone in
        do b <- (if truthy x then correct_value_type x t else Ok true) ;
        if negb b then Ok false
        else
          do l <- py_iter (get d (u "values") (VList [])) ;
          do b <- all_types t l ;
          if b then purpose_ok (get d (u "purpose") VNone) else Ok false
  | _ => Ok true
  end.
(** lines 454-456: False becomes a ValueError *)
Definition claims_value_check (v : value) (t : vtyp) : res unit :=
  do b <- claims_value v t ; if b then Ok tt else Err EValueError.

(** the loop over the parameters of the base class, 443-448; [fs] tells of each member of the
    instance how to check it for a type *)
Fixpoint check_params (fs : dict (vtyp -> res unit)) (P : dict pspec) : res unit :=
  match P with
  | [] => Ok tt
  | (k, s) :: r =>
      match dget fs k with
      | None => check_params fs r
      | Some f => do _ <- f (p_typ s) ; check_params fs r
      end
  end.
(** an element of a list, 465-470; [rec] is verify_claims_request *)
Definition check_elem (rec : value -> cls -> res unit) (t : vtyp) (v : value) : res unit :=
  match t with
  | TStr | TInt | TBool => claims_value_check v t
  | TMsg c => match v with VNone => Ok tt | _ => rec v c end
  | _ => Ok tt
  end.
(** one member, 450-470 *)
Definition check_member (rec : value -> cls -> res unit) (v : value) (t : vtyp) : res unit :=
  match t with
  | TStr | TInt | TBool => claims_value_check v t
  | TMsg c => match v with VNone => Ok tt | _ => rec v c end
  | TList t => match v with
               | VNone => Ok tt
               | VList l => do _ <- mapM (check_elem rec t) l ; Ok tt
               | VStr s => do _ <- mapM (fun c => check_elem (fun _ c => match cd_param (cdef c) with [] => Ok tt | _ => Err ETypeError end)
                                                    t (VStr [c])) s ; Ok tt
               | VDict d | VMsg _ d =>
                   do _ <- mapM (fun kv => check_elem (fun _ c => match cd_param (cdef c) with [] => Ok tt | _ => Err ETypeError end)
                                            t (VStr (fst kv))) d ; Ok tt
               | _ => Err ETypeError
               end
  | TDict => Ok tt
  end.
(** verify_claims_request(instance, base), 443-470, for an instance of the class [c] as base.  The
    characters and keys in check_member are texts, for which [instance[key]] is a TypeError. *)
Fixpoint verify_claims_request (v : value) (c : cls) : res unit :=
  match v with
  | VDict d | VMsg _ d =>
      check_params (map (fun kv => (fst kv, check_member verify_claims_request (snd kv))) d) (cd_param (cdef c))
  | _ => match cd_param (cdef c) with [] => Ok tt | _ => Err ETypeError end
  end.

(** VerificationElementRequest.verify, 481-483, and VerifiedClaimsRequest.verify, 500-502; None is
    recorded as false *)
Definition request_verify (C : clsdef) (base : cls) (d : dict value) : res bool :=
  do _ <- verify_base C d ;
  do _ <- verify_claims_request (VDict d) base ;
  Ok false.
(** IDAClaimsRequest.verify, 505-512 *)
Definition ida_claims_verify (C : clsdef) (d : dict value) : dict value * res bool :=
  match verify_base C d with
  | Err e => (d, Err e)
  | Ok _ =>
      let vc := get d (u "verified_claims") VNone in
      if truthy vc then
        match (match vc with VDict kws | VMsg _ kws => construct (cdef C_ida_VerifiedClaimsRequest) kws | _ => Err ETypeError end) with
        | Err e => (d, Err e)
        | Ok m =>
            match request_verify (cdef C_ida_VerifiedClaimsRequest) C_ida_VerifiedClaims m with
            | Err e => (d, Err e)
            | Ok _ =>
                match setitem C d (u "verified_claims") (VMsg C_ida_VerifiedClaimsRequest m) with
                | (d', Ok _) => (d', Ok false)
                | (d', Err e) => (d', Err e)
                end
            end
        end
      else (d, Ok false)
  end.

(** ** ClaimsConstructor, 515-554 *)

(** a value in its [info]: a plain value or another constructor with the class of its base;
    oidc/identity_assurance.py:515-555 *)
Inductive claim := CV (v : value) | CC (base : cls) (info : list (ustr * claim)).
(** __setitem__, 526-543, of a constructor whose base is an instance of the class of [C] *)
Definition cc_set (C : clsdef) (info : dict claim) (k : ustr) (x : claim) : res (dict claim) :=
  match x with
  | CV VNone => Ok (dset info k x)
  | _ =>
      match value_type C k with
      | None => Ok (dset info k x)
      | Some t =>
          do b <- match x with
                  | CC base _ => match t with
                                 | TList _ => Err ETypeError
                                 | TMsg c => Ok (subclass base c)
                                 | _ => Ok false
                                 end
                  | CV v => correct_value_type v t
                  end ;
          if b then Ok (dset info k x) else Err EValueError
      end
  end.
(** to_dict, 545-552 *)
Fixpoint cc_value (x : claim) : value :=
  match x with
  | CV v => v
  | CC _ info => VDict (map (fun kv => (fst kv, cc_value (snd kv))) info)
  end.
(** to_dict of a ClaimsConstructor, oidc/identity_assurance.py:545-552 *)
Definition cc_to_dict (info : dict claim) : dict value := map (fun kv => (fst kv, cc_value (snd kv))) info.
(** to_json of a ClaimsConstructor, oidc/identity_assurance.py:554-555 *)
Definition cc_to_json (info : dict claim) : res ustr := json_dumps (VDict (cc_to_dict info)).
