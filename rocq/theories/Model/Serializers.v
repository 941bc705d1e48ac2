(** The serializers of the parameter tables as functions of their own: what they make of a value in each format and
    at each level.  Model/Message.v has what they contribute to to_dict and to_urlencoded. *)
From Coq Require Import List NArith Bool String.
From Verif Require Import Base.Ustr Base.Percent Model.Cls Model.Value Model.Pspec Model.Tables Model.Json Model.Message Model.Dispatch Model.Calendar.
Import ListNotations.
Open Scope list_scope.
Open Scope N_scope.

(** [repr(s)] of a text for [str] of a container; used by urlencode in message.py:922, oidc/__init__.py:152,
    1081.  Simplification: only printable ASCII characters. *)
Definition repr_text (s : ustr) : res ustr :=
  if forallb (fun c => (32 <=? c) && (c <? 127)) s then
    let q := if existsb (N.eqb 39) s && negb (existsb (N.eqb 34) s) then 34 else 39 in
    Ok (q :: flat_map (fun c => if (c =? 92) || (c =? q) then [92; c] else [c]) s ++ [q])
  else Err OutOfModel.
(** [repr(v)]; the same lines.  Simplification: no messages. *)
Fixpoint py_repr (v : value) : res ustr :=
  match v with
  | VStr s => repr_text s
  | VList l => do ts <- mapM py_repr l ; Ok (91 :: join [44; 32] ts ++ [93])
  | VDict d =>
      do ts <- (fix go (d : list (ustr * value)) : res (list ustr) :=
                  match d with
                  | [] => Ok []
                  | (k, x) :: r => do a <- repr_text k ; do b <- py_repr x ; do ts <- go r ; Ok ((a ++ [58; 32] ++ b) :: ts)
                  end) d ;
      Ok (123 :: join [44; 32] ts ++ [125])
  | _ => py_str v
  end.
(** [str(v)], message.py:922 *)
Definition py_text (v : value) : res ustr := match v with VStr s => Ok s | _ => py_repr v end.
(** [urlencode([(k, v) for k, v in inst.items()])] of a dictionary, message.py:922, oidc/__init__.py:152, 1081 *)
Definition urlencode_items (d : dict value) : res ustr :=
  do l <- mapM (fun kv : ustr * value => do t <- py_text (snd kv) ; Ok (fst kv, t)) d ;
  match urlencode l with Some t => Ok t | None => Err EUnicodeEncodeError end.

(** [inst.serialize(method, lev)] of an instance of [c] that is not lax, message.py:147-159: to_json gives a dictionary
    below the top level (443-454).  Simplification: to_urlencoded at a lower level (the serializers of its parameters
    then give no JSON texts) only for messages without dictionaries among the values. *)
Definition serialize_at (c : cls) (d : dict value) (method : ustr) (lev : nat) : res value :=
  match lev with
  | O => serialize (cdef c) false d method
  | S _ =>
      if ueqb method (u "json") then do r <- to_dict (cdef c) d ; Ok (VDict r)
      else if ueqb method (u "urlencoded") && existsb (fun kv : ustr * value => match snd kv with VDict _ => true | _ => false end) d then Err OutOfModel
      else serialize (cdef c) false d method
  end.

(** list_serializer, message.py:863-869 *)
Definition list_serializer (v : value) (f : ustr) : res value :=
  match v with
  | VList _ => if ueqb f (u "urlencoded") then do t <- sp_join v ; Ok (VStr t) else Ok v
  | _ => Err EValueError
  end.
(** sp_sep_list_serializer, message.py:882-886 *)
Definition sp_sep_list_serializer (v : value) : res value :=
  match v with VStr _ => Ok v | _ => do t <- sp_join v ; Ok (VStr t) end.
(** json_serializer, message.py:898-899, and json_ser, oidc/__init__.py:83-84 *)
Definition json_serializer (v : value) : res value := do t <- json_dumps v ; Ok (VStr t).
(** msg_ser, message.py:916-939, and link_ser, oidc/__init__.py:1075-1098, with the class [inst] whose instances are
    serialized: Message and Link *)
Definition ser_instance (inst : cls) (v : value) (f : ustr) (lev : nat) : res value :=
  if umem f [u "urlencoded"; u "json"] then
    match v with
    | VDict d => if ueqb f (u "json") then json_serializer v else do t <- urlencode_items d ; Ok (VStr t)
    | VMsg c d => if subclass c inst then serialize_at c d f lev else Ok v
    | _ => Ok v
    end
  else if ueqb f (u "dict") then
    match v with
    | VMsg c d => if subclass c inst then serialize_at c d f lev else Err EMessageException
    | VDict _ | VStr _ => Ok v
    | _ => Err EMessageException
    end
  else Err EOidcMsgError.
(** msg_ser, message.py:916-939 *)
Definition msg_ser : value -> ustr -> nat -> res value := ser_instance C_Message.
(** link_ser, oidc/__init__.py:1075-1098 *)
Definition link_ser : value -> ustr -> nat -> res value := ser_instance C_oidc_Link.
(** link_list_ser, oidc/__init__.py:1101-1105 *)
Definition link_list_ser (v : value) (f : ustr) : res value :=
  match v with
  | VList l => do r <- mapM (fun x => link_ser x f 0) l ; Ok (VList r)
  | _ => link_ser v f 0
  end.
(** msg_list_ser, message.py:952-956 *)
Definition msg_list_ser (v : value) (f : ustr) : res value :=
  do l <- py_iter v ; do r <- mapM (fun x => msg_ser x f 0) l ; Ok (VList r).
(** msg_ser_json, oidc/__init__.py:111-132 *)
Definition msg_ser_json (v : value) (f : ustr) (lev : nat) : res value :=
  let f := match lev with O => f | S _ => u "dict" end in
  if ueqb f (u "dict") then
    match v with
    | VMsg c d => serialize_at c d f lev
    | VDict _ => Ok v
    | _ => Err EMessageException
    end
  else
    match v with
    | VDict _ => json_serializer v
    | VMsg c d => serialize_at c d (u "json") lev
    | _ => Ok v
    end.
(** claims_ser, oidc/__init__.py:139-164; urlencode of something that is no dictionary is a TypeError unless it is empty *)
Definition claims_ser (v : value) (f : ustr) (lev : nat) : res value :=
  do item <- match v with VList [] => Err EIndexError | VList (x :: _) => Ok x | _ => Ok v end ;
  match item with
  | VMsg c d => serialize_at c d f (S lev)
  | _ =>
      if ueqb f (u "urlencoded") then
        match item with
        | VDict d => do t <- urlencode_items d ; Ok (VStr t)
        | VStr [] | VList [] => Ok (VStr [])
        | _ => Err ETypeError
        end
      else if ueqb f (u "json") then match lev with O => json_serializer item | S _ => Ok item end
      else if ueqb f (u "dict") then match item with VDict _ => Ok item | _ => Err EMessageException end
      else Err EOidcMsgError
  end.
(** any_ser, message.py:995-1005: lists are serialized in the format "urlencoded" whatever format is asked for *)
Definition any_ser (v : value) (f : ustr) (lev : nat) : res value :=
  match v with
  | VStr _ | VInt _ | VBool _ => Ok v
  | VMsg _ _ => msg_ser v f lev
  | VDict _ => json_serializer v
  | VList _ => msg_list_ser v (u "urlencoded")
  | _ => Err EValueError
  end.
(** any_deser, message.py:1008-1014 *)
Definition any_deser (v : value) (f : sfmt) : res value :=
  match v with
  | VDict d => do m <- construct (cdef C_Message) d ; Ok (VMsg C_Message m)
  | VList l => do r <- mapM (fun x => l_deser the_lib DeMsg x f) l ; Ok (VList r)
  | _ => Err EValueError
  end.
