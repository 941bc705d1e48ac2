(** src/oidcmsg/message.py: class Message, the serializers and deserializers.

    A message is the content of its [_dict]; its class enters as a [clsdef] (any
    table, so user defined classes are covered) for the message an operation is
    called on, and as a library class [cls] for messages nested inside values.
    The attribute [lax] is an argument of [to_urlencoded]; [jwt], [jws_header],
    [jwe_header] and [verify_ssl] are not part of the state (the header is an extra
    result of [from_jwt] in Model/Verify.v). *)
From Coq Require Import List NArith ZArith QArith Bool String.
From Verif Require Import Base.Ustr Base.Utf8 Base.Percent Model.Cls Model.Value Model.Pspec
  Model.Tables Model.Json.
From Verif Require Export Model.Calendar.
Import ListNotations.
Open Scope list_scope.
Open Scope N_scope.

(** serialization formats that occur as [sformat] (message.py:863-956) *)
Inductive sfmt := Furl | Fdict | Fjson.

(** a Python list comprehension / for loop that may raise *)
Section MapM.
  Context {A B : Type}.
  Variable f : A -> res B.
  (** a list comprehension whose expression may raise, e.g. message.py:942-956 *)
  Fixpoint mapM (l : list A) : res (list B) :=
    match l with
    | [] => Ok []
    | x :: r => match f x with
                | Err e => Err e
                | Ok y => match mapM r with Err e => Err e | Ok ys => Ok (y :: ys) end
                end
    end.
End MapM.

(** [iter(v)]: characters, elements or keys; TypeError for the rest; message.py:882-886 *)
Definition py_iter (v : value) : res (list value) :=
  match v with
  | VStr s => Ok (map (fun c => VStr [c]) s)
  | VList l => Ok l
  | VDict d | VMsg _ d => Ok (map (fun kv => VStr (fst kv)) d)
  | _ => Err ETypeError
  end.

(** [" ".join(v)]; message.py:882-886 *)
Definition strs_of (l : list value) : option (list ustr) :=
  all_some (map (fun x => match x with VStr s => Some s | _ => None end) l).
(** " ".join(v), sp_sep_list_serializer, message.py:882-886 *)
Definition sp_join (v : value) : res ustr :=
  match py_iter v with
  | Err e => Err e
  | Ok l => match strs_of l with Some ss => Ok (join [32] ss) | None => Err ETypeError end
  end.

(** [v.split(" ")]; message.py:889-895 *)
Definition sp_split (v : value) : res value :=
  match v with
  | VStr s => Ok (VList (map VStr (split_on 32 s)))
  | _ => Err EAttributeError
  end.

(** [key.split("#")[0]] (message.py:101,206,252,296) *)
Definition base_key (k : ustr) : ustr := hd [] (split_on 35 k).

(** the specification used for a key: the key itself, the key without language
    tag, '*' (message.py:97-108, 202-213, 248-258) *)
Definition spec_of (P : dict pspec) (k : ustr) : option pspec :=
  match dget P k with
  | Some s => Some s
  | None =>
      match dget P (base_key k) with
      | Some s => Some s
      | None => dget P (u "*")
      end
  end.

(** the serializer of a parameter, message.py:80-146, 236-271 *)
Definition ser_of (P : dict pspec) (k : ustr) : option serk :=
  match spec_of P k with Some s => p_ser s | None => None end.

(** ** to_dict *)

(** [_ser(val, "dict", lev)] with lev >= 1; [f] is [Message.to_dict].
    list_serializer message.py:863-869, sp_sep_list_serializer 882-886,
    json_serializer 898-899, msg_ser 927-935, msg_ser_json oidc:113-122, claims_ser
    oidc:139-164, msg_list_ser message.py:952-956, link_list_ser and link_ser
    oidc:1086-1105, time_stamp_ser and date_ser identity_assurance.py:101-137 (in
    Model/Calendar.v). *)
Definition msg_ser_dict (f : value -> res value) (v : value) : res value :=
  match v with
  | VMsg _ _ => f v
  | VDict _ | VStr _ => Ok v
  | _ => Err EMessageException
  end.
(** link_ser with the format dict, oidc/__init__.py:1075-1098 *)
Definition link_ser_dict (f : value -> res value) (v : value) : res value :=
  match v with
  | VMsg c _ => if subclass c C_oidc_Link then f v else Err EMessageException
  | VDict _ | VStr _ => Ok v
  | _ => Err EMessageException
  end.
(** a serializer called with the format dict, message.py:252, 863-956 *)
Definition ser_dict (f : value -> res value) (s : serk) (v : value) : res value :=
  match s with
  | SerList => match v with VList _ => Ok v | _ => Err EValueError end
  | SerSpSep => match v with
                | VStr _ => Ok v
                | _ => match sp_join v with Ok t => Ok (VStr t) | Err e => Err e end
                end
  | SerJson => match json_dumps v with Ok t => Ok (VStr t) | Err e => Err e end
  | SerMsg => msg_ser_dict f v
  | SerMsgJson => match v with
                  | VMsg _ _ => f v
                  | VDict _ => Ok v
                  | _ => Err EMessageException
                  end
  | SerClaims => match v with
                 | VList [] => Err EIndexError
                 | VList (x :: _) =>
                     match x with
                     | VMsg _ _ => f x
                     | VDict _ => Ok x
                     | _ => Err EMessageException
                     end
                 | VMsg _ _ => f v
                 | VDict _ => Ok v
                 | _ => Err EMessageException
                 end
  | SerMsgList => match v with
                  | VStr s => Ok (VList (map (fun c => VStr [c]) s))
                  | VDict d | VMsg _ d => Ok (VList (map (fun kv => VStr (fst kv)) d))
                  | VList l => match mapM (msg_ser_dict f) l with Ok r => Ok (VList r) | Err e => Err e end
                  | _ => Err ETypeError
                  end
  | SerLinkList => match v with
                   | VList l => match mapM (link_ser_dict f) l with Ok r => Ok (VList r) | Err e => Err e end
                   | VMsg c _ => if subclass c C_oidc_Link then f v else Err EMessageException
                   | VDict _ | VStr _ => Ok v
                   | _ => Err EMessageException
                   end
  | SerTime => stamp_ser false v
  | SerDate => stamp_ser true v
  end.

(** lines 263-269: what a (serialized) value becomes in the result *)
Definition td_post (f : value -> res value) (v : value) : res value :=
  match v with
  | VMsg _ _ => f v
  | VList ((VMsg _ _ :: _) as l) => match mapM f l with Ok r => Ok (VList r) | Err e => Err e end
  | _ => Ok v
  end.

(** one entry of [to_dict], lines 247-269; a serializer never returns a message
    object except list_serializer, whose list is handled by lines 265-267 *)
Definition td_entry (f : value -> res value) (s : option serk) (v : value) : res value :=
  match s with
  | None => td_post f v
  | Some SerList => match v with VList _ => td_post f v | _ => Err EValueError end
  | Some k => ser_dict f k v
  end.

(** [v.to_dict()] for a nested message; AttributeError when [v] is no message; message.py:236-271 *)
Fixpoint to_dict_v (v : value) : res value :=
  match v with
  | VMsg c d =>
      match (fix go (d : list (ustr * value)) : res (list (ustr * value)) :=
               match d with
               | [] => Ok []
               | (k, x) :: r =>
                   match td_entry to_dict_v (ser_of (cd_param (cdef c)) k) x with
                   | Err e => Err e
                   | Ok y => match go r with Err e => Err e | Ok r' => Ok ((k, y) :: r') end
                   end
               end) d with
      | Ok r => Ok (VDict r)
      | Err e => Err e
      end
  | _ => Err EAttributeError
  end.

(** Message.to_dict, message.py:236-271, of a message of class [C] *)
Definition to_dict (C : clsdef) (d : dict value) : res (dict value) :=
  mapM (fun kv => match td_entry to_dict_v (ser_of (cd_param C) (fst kv)) (snd kv) with
                  | Ok y => Ok (fst kv, y)
                  | Err e => Err e
                  end) d.

(** Message.to_json, message.py:443-454 (lev = 0, indent = None) *)
Definition to_json (C : clsdef) (d : dict value) : res ustr :=
  do r <- to_dict C d ; json_dumps (VDict r).

(** ** to_urlencoded *)

(** a value in the parameter list handed to [urlencode]: bytes, text or None; message.py:80-146 *)
Inductive uval := UBytes (s : ustr) | UText (s : ustr) | UNone.

(** [s.encode("utf-8")], recorded by the text *)
Definition enc8 (s : ustr) : res uval :=
  if scalars s then Ok (UBytes s) else Err EUnicodeEncodeError.

(** [str(_ser(val, sformat="urlencoded", lev=0))] for a list, line 118.
    Outside the model: the text of a list (repr). *)
Definition ser_url_list (s : serk) (v : value) : res ustr :=
  match s with
  | SerList | SerSpSep => sp_join v
  | SerJson => json_dumps v
  | SerTime | SerDate => Err EValueError
  | _ => Err OutOfModel
  end.

(** [_ser(val, lev=0)] for a value that is no str, list, Message or None, with
    [except Exception: str(val)], lines 131-135.  msg_ser and link_list_ser have a
    mandatory sformat argument, so they raise TypeError here. *)
Definition ser_url_other (s : option serk) (v : value) : res ustr :=
  match s with
  | None | Some SerList | Some SerMsg | Some SerLinkList => py_str v
  | Some SerSpSep => match v with VDict _ => sp_join v | _ => py_str v end
  | Some SerJson =>
      match json_dumps v with
      | Ok t => Ok t
      | Err e => if artefact e then Err e else py_str v
      end
  | Some SerMsgJson =>
      match v with
      | VDict _ => match json_dumps v with
                   | Ok t => Ok t
                   | Err e => if artefact e then Err e else py_str v
                   end
      | _ => py_str v
      end
  | Some SerClaims | Some SerMsgList =>
      match v with VDict _ => Err OutOfModel | _ => py_str v end
  | Some SerTime | Some SerDate =>
      match stamp_ser (match s with Some SerDate => true | _ => false end) v with
      | Ok (VStr t) => Ok t
      | Err e => if artefact e then Err e else py_str v
      | _ => py_str v
      end
  end.

(** lines 96-135: the parameters one entry contributes *)
Definition ue_entry (P : dict pspec) (k : ustr) (v : value) : res (list (ustr * uval)) :=
  let ser := match spec_of P k with Some s => p_ser s | None => None end in
  let null_allowed := match spec_of P k with Some s => p_null s | None => false end in
  match v with
  | VNone => if null_allowed then Ok [(k, UNone)] else Ok []
  | VStr s => do b <- enc8 s ; Ok [(k, b)]
  | VList l =>
      match ser with
      | Some s => do t <- ser_url_list s v ; Ok [(k, UText t)]
      | None => mapM (fun x => do t <- py_str x ; do b <- enc8 t ; Ok (k, b)) l
      end
  | VMsg _ _ =>
      match ser with
      | None => Err OutOfModel
      | Some s =>
          match (do x <- ser_dict to_dict_v s v ; json_dumps x) with
          | Ok t => Ok [(k, UText t)]
          | Err ETypeError => Err OutOfModel
          | Err e => Err e
          end
      end
  | _ => do t <- ser_url_other ser v ; Ok [(k, UText t)]
  end.

(** [urlencode(params)], lines 137-146, with the second attempt after a
    UnicodeEncodeError ([bytes] and [None] have no [encode]) *)
Definition uval_text (x : uval) : ustr :=
  match x with UBytes s | UText s => s | UNone => u "None" end.
(** the exception handler of to_urlencoded, message.py:137-146 *)
Fixpoint reencode (l : list (ustr * uval)) : exn :=
  match l with
  | [] => EUnicodeEncodeError
  | (_, UText s) :: r => if scalars s then reencode r else EUnicodeEncodeError
  | _ => EAttributeError
  end.
(** urlencode(params), message.py:137-146 *)
Definition ue_params (l : list (ustr * uval)) : res ustr :=
  match urlencode (map (fun kv => (fst kv, uval_text (snd kv))) l) with
  | Some t => Ok t
  | None => Err (reencode l)
  end.

(** lines 88-92 *)
Definition missing_required (P : dict pspec) (d : dict value) : bool :=
  existsb (fun ks => p_req (snd ks) && negb (dhas d (fst ks))) P.

(** Message.to_urlencoded, message.py:80-146 (lev = 0); the text of the message in the
    exception (lines 91-92, __str__ 562-568) is made by to_dict, which may raise *)
Definition to_urlencoded (C : clsdef) (lax : bool) (d : dict value) : res ustr :=
  if negb lax && missing_required (cd_param C) d then (do _ <- to_dict C d ; Err EMissingRequiredAttribute)
  else
    do ps <- mapM (fun kv => ue_entry (cd_param C) (fst kv) (snd kv)) d ;
    ue_params (List.concat ps).

(** ** reading values *)

(** [isinstance(v, t)]; a nested list type (not used, TypeError in Python) is
    taken as false; message.py:322-441 *)
Definition isinstance (v : value) (t : vtyp) : bool :=
  match t, v with
  | TStr, VStr _ => true
  | TInt, VInt _ => true
  | TInt, VBool _ => true
  | TBool, VBool _ => true
  | TDict, VDict _ => true
  | TMsg c, VMsg c' _ => subclass c' c
  | _, _ => false
  end.

(** [except Exception as exc: raise DecodeError(...)]; message.py:322-441 *)
Definition decode_err {A} (r : res A) : res A :=
  match r with
  | Ok a => Ok a
  | Err e => if artefact e then Err e else Err EDecodeError
  end.

(** the functions that build nested messages: deserializers and [cls( **kwargs )]; message.py:273-320, 906-949 *)
Record lib := {
  l_deser : deserk -> value -> sfmt -> res value;
  l_mk : cls -> dict value -> res (dict value) }.

Section WithLib.
  Variable L : lib.

  (** Message._add_value, message.py:322-441.  [Ok None]: nothing stored, [Ok (Some
      v)]: [v] is stored under the key.  Simplification: a list type without
      deserializer given a single element sets an attribute of the object (line
      359); no library class has such a specification: OutOfModel. *)
  Definition add_val (s : pspec) (v : value) : res (option value) :=
    let empty := match v with VList [] | VList (VNone :: _) => true | _ => false end in
    if empty && negb (p_null s) then Ok None
    else
      match p_typ s with
      | TList t =>
          match v with
          | VNone => if p_null s then Ok (Some VNone) else Err EValueError
          | _ =>
              if isinstance v t then
                match t with
                | TMsg _ => Ok (Some (VList [v]))
                | _ => match p_deser s with
                       | Some d => do x <- decode_err (l_deser L d v Furl) ; Ok (Some x)
                       | None => Err OutOfModel
                       end
                end
              else
                match v with
                | VList _ =>
                    do v1 <- match p_deser s with
                             | Some d => decode_err (l_deser L d v Fdict)
                             | None => Ok v
                             end ;
                    match t with
                    | TMsg c =>
                        do ms <- decode_err
                               (do xs <- py_iter v1 ;
                                mapM (fun x => do it <- items x ;
                                               do m <- l_mk L c it ; Ok (VMsg c m)) xs) ;
                        Ok (Some (VList ms))
                    | _ =>
                        do xs <- py_iter v1 ;
                        if forallb (fun x => isinstance x t) xs then Ok (Some v1) else Err EDecodeError
                    end
                | VDict _ =>
                    match p_deser s with
                    | Some d => do x <- decode_err (l_deser L d v Fdict) ; Ok (Some x)
                    | None => Err EDecodeError
                    end
                | _ => Err EDecodeError
                end
          end
      | t =>
          match v with
          | VNone => Ok (Some VNone)
          | VBool b => match t with TBool => Ok (Some v) | _ => Err EValueError end
          | _ =>
              if isinstance v t then Ok (Some v)
              else
                match p_deser s with
                | Some d => do x <- decode_err (l_deser L d v Fdict) ; Ok (Some x)
                | None =>
                    match t with
                    | TInt =>
                        match py_int v with
                        | Ok z => Ok (Some (VInt z))
                        | Err EValueError | Err ETypeError => Err EValueError
                        | Err e => Err e
                        end
                    | TMsg C_Message =>
                        match v with
                        | VDict _ | VStr _ => Ok (Some v)
                        | _ => Err EValueError
                        end
                    | _ => Err EValueError
                    end
                end
          end
      end.

  (** [val in ["", [""]]], line 287 *)
  Definition is_blank (v : value) : bool :=
    py_eq v (VStr []) || py_eq v (VList [VStr []]).

  (** the body of the loop of from_dict, lines 287-319: what is stored under [k] *)
  Definition fd_entry (P : dict pspec) (k : ustr) (v : value) : res (option value) :=
    if is_blank v then Ok None
    else
      match dget P k with
      | Some s => add_val s v
      | None =>
          match dget P (base_key k) with
          | Some s => add_val s v
          | None =>
              match dget P (u "*") with
              | Some s => match v with VNone => Ok (Some VNone) | _ => add_val s v end
              | None => Ok (Some v)
              end
          end
      end.

  (** the loop of from_dict, lines 284-320; the content is returned next to the
      outcome because entries processed before an exception stay stored *)
  Fixpoint from_items (P : dict pspec) (d : dict value) (l : dict value) : dict value * res unit :=
    match l with
    | [] => (d, Ok tt)
    | (k, v) :: r =>
        match fd_entry P k v with
        | Err e => (d, Err e)
        | Ok None => from_items P d r
        | Ok (Some x) => from_items P (dset d k x) r
        end
    end.

  (** [self.from_dict(v)] for any value; message.py:273-320 *)
  Definition from_dict_gen (P : dict pspec) (d : dict value) (v : value) : dict value * res unit :=
    match items v with
    | Ok l => from_items P d l
    | Err e => (d, Err e)
    end.

  (** drop the intermediate content when an exception was raised; message.py:906-949 *)
  Definition ret_msg (r : dict value * res unit) : res (dict value) :=
    match r with (d, Ok _) => Ok d | (_, Err e) => Err e end.

  (** Message.__init__, message.py:37-47, called with keyword arguments: [self] is
      given twice (TypeError), [set_defaults] is no parameter of the message *)
  Definition construct_gen (C : clsdef) (kw : dict value) : res (dict value) :=
    if dhas kw (u "self") then Err ETypeError
    else
      let d0 := match dget kw (u "set_defaults") with
                | Some b => if truthy b then cd_default C else []
                | None => cd_default C
                end in
      ret_msg (from_items (cd_param C) d0 (ddel kw (u "set_defaults"))).

  (** Message.from_json, message.py:456-466; json.loads of something that is no
      text is a TypeError (bytes are not modelled) *)
  Definition from_json_gen (P : dict pspec) (d : dict value) (v : value) : dict value * res unit :=
    match v with
    | VStr s => match json_loads s with
                | Ok j => from_dict_gen P d j
                | Err e => (d, Err e)
                end
    | _ => (d, Err ETypeError)
    end.

  (** one key of from_urlencoded, lines 201-232 *)
  Definition fu_entry (P : dict pspec) (k : ustr) (vals : list ustr) : res value :=
    match spec_of P k with
    | None => match vals with [x] => Ok (VStr x) | _ => Ok (VList (map VStr vals)) end
    | Some s =>
        match p_typ s with
        | TList _ =>
            match p_deser s with
            | Some d => l_deser L d (VStr (hd [] vals)) Furl
            | None => Ok (VList (map VStr vals))
            end
        | _ =>
            match vals with
            | [x] => match p_deser s with
                     | Some d => l_deser L d (VStr x) Furl
                     | None => Ok (VStr x)
                     end
            | _ => Err ETooManyValues
            end
        end
    end.

  (** the loop of from_urlencoded, message.py:177-234 *)
  Fixpoint from_fields (P : dict pspec) (d : dict value) (l : list (ustr * list ustr))
    : dict value * res unit :=
    match l with
    | [] => (d, Ok tt)
    | (k, vals) :: r =>
        match fu_entry P k vals with
        | Err e => (d, Err e)
        | Ok x => from_fields P (dset d k x) r
        end
    end.

  (** Message.from_urlencoded, message.py:177-234, of a text *)
  Definition from_qs (P : dict pspec) (d : dict value) (s : ustr) : dict value * res unit :=
    match parse_qs s with
    | [] => match s with [] => (d, Ok tt) | _ => (d, Err EFormatError) end
    | l => from_fields P d l
    end.

  (** lines 190-193: a list stands for its first element; parse_qs of something
      that is no text is outside the model *)
  Definition from_urlencoded_gen (P : dict pspec) (d : dict value) (v : value) : dict value * res unit :=
    match v with
    | VStr s => from_qs P d s
    | VList (VStr s :: _) => from_qs P d s
    | VList [] => (d, Err EIndexError)
    | _ => (d, Err OutOfModel)
    end.

  (** [cls().deserialize(v, fmt)], message.py:161-175 *)
  Definition deser_cls (c : cls) (v : value) (f : sfmt) : res value :=
    let P := cd_param (cdef c) in
    let d0 := cd_default (cdef c) in
    do d <- ret_msg (match f with
                     | Fdict => from_dict_gen P d0 v
                     | Fjson => from_json_gen P d0 v
                     | Furl => from_urlencoded_gen P d0 v
                     end) ;
    Ok (VMsg c d).

  (** [json.dumps(val)] unless it is a text; message.py:80-146 *)
  Definition dumps_unless_str (v : value) : res value :=
    match v with VStr _ => Ok v | _ => do t <- json_dumps v ; Ok (VStr t) end.

  (** msg_deser message.py:906-913 and its copies *)
  Definition de_msg (c : cls) (v : value) (f : sfmt) : res value :=
    match v with
    | VMsg _ _ => Ok v
    | VStr _ => deser_cls c v f
    | _ => match f with
           | Furl => deser_cls c v Furl
           | _ => do t <- json_dumps v ; deser_cls c (VStr t) Fjson
           end
    end.

  (** _l_deser, oidc/__init__.py:1058-1065 *)
  Definition de_link (v : value) (f : sfmt) : res value :=
    match v with
    | VMsg c _ =>
        if subclass c C_oidc_Link then Ok v
        else match f with
             | Furl => deser_cls C_oidc_Link v Furl
             | _ => do t <- json_dumps v ; deser_cls C_oidc_Link (VStr t) Fjson
             end
    | VStr _ => deser_cls C_oidc_Link v f
    | _ => match f with
           | Furl => deser_cls C_oidc_Link v Furl
           | _ => do t <- json_dumps v ; deser_cls C_oidc_Link (VStr t) Fjson
           end
    end.

  (** deserialize_from_one_of, oidc/__init__.py:67-80 *)
  Definition de_one_of (c : cls) (v : value) (f : sfmt) : res value :=
    do v1 <- match f with Furl => Ok v | _ => dumps_unless_str v end ;
    let (f1, f2) := match f with Furl => (Furl, Fjson) | _ => (Fjson, Furl) end in
    match deser_cls c v1 f1 with
    | Err EFormatError =>
        match deser_cls c v1 f2 with
        | Err EFormatError => Err EFormatError
        | r => r
        end
    | r => r
    end.

  (** the deserializers (sources in Model/Pspec.v); message.py:872-949 *)
  Definition deser_step (k : deserk) (v : value) (f : sfmt) : res value :=
    match k with
    | DeList =>
        match f with
        | Furl => match v with
                  | VStr _ => sp_split v
                  | VList [x] => sp_split x
                  | _ => Ok VNone
                  end
        | _ => Ok v
        end
    | DeSpSep =>
        match v with
        | VStr _ => sp_split v
        | VList [x] => sp_split x
        | _ => Ok v
        end
    | DeJson => match v with VStr s => json_loads s | _ => Err ETypeError end
    | DeMsg => de_msg C_Message v f
    | DeMsgCls c => de_msg c v f
    | DeMsgList =>
        match v with
        | VDict d => do m <- construct_gen (cdef C_Message) d ; Ok (VList [VMsg C_Message m])
        | _ => do xs <- py_iter v ; do ys <- mapM (fun x => de_msg C_Message x f) xs ; Ok (VList ys)
        end
    | DeOneOf c => de_one_of c v f
    | DeJsonCls c =>
        match f with
        | Fdict => do v1 <- match v with VStr s => json_loads s | _ => Ok v end ;
                   deser_cls c v1 Fdict
        | _ => do v1 <- dumps_unless_str v ; deser_cls c v1 Fjson
        end
    | DeDict => dumps_unless_str v
    | DeLink =>
        match v with
        | VList l => do ys <- mapM (fun x => de_link x f) l ; Ok (VList ys)
        | _ => de_link v f
        end
    | DeEvidenceList =>
        match v with
        | VDict d => do m <- construct_gen (cdef C_Message) d ; Ok (VList [VMsg C_Message m])
        | _ => do xs <- py_iter v ;
               do ys <- mapM (fun x => de_one_of C_ida_Evidence x f) xs ; Ok (VList ys)
        end
    | DeTime => stamp_deser false v
    | DeDate => stamp_deser true v
    end.

  (** one level of nested messages, message.py:872-949 *)
  Definition lib_step : lib :=
    {| l_deser := deser_step; l_mk := fun c kw => construct_gen (cdef c) kw |}.
End WithLib.

(** The knot: deserializers build messages whose tables name further deserializers.
    The nesting of the library tables is bounded (Proofs/FuelLemmas.v), so a constant
    number of unfoldings is enough. message.py:872-949 *)
Fixpoint lib_n (n : nat) : lib :=
  match n with
  | O => {| l_deser := fun _ _ _ => Err OutOfFuel; l_mk := fun _ _ => Err OutOfFuel |}
  | S m => lib_step (lib_n m)
  end.
(** the functions with enough levels for the library, message.py:872-949; see C99 *)
Definition the_lib : lib := lib_n 12.

(** ** the methods of Message *)
Section Methods.
  Variable C : clsdef.

  (** Message( **kw ), message.py:37-47 *)
  Definition construct (kw : dict value) : res (dict value) := construct_gen the_lib C kw.
  (** [m.from_dict(v)], message.py:273-320: new content and outcome *)
  Definition from_dict (d : dict value) (v : value) : dict value * res unit :=
    from_dict_gen the_lib (cd_param C) d v.
  (** [m.from_json(text)], message.py:456-466 *)
  Definition from_json (d : dict value) (s : ustr) : dict value * res unit :=
    from_json_gen the_lib (cd_param C) d (VStr s).
  (** [m.from_urlencoded(text)], message.py:177-234 *)
  Definition from_urlencoded (d : dict value) (s : ustr) : dict value * res unit :=
    from_qs the_lib (cd_param C) d s.

  (** Message.set_defaults, message.py:73-78 *)
  Definition set_defaults (d : dict value) : dict value :=
    fold_left (fun d kv => if dhas d (fst kv) then d else dset d (fst kv) (snd kv)) (cd_default C) d.

  (** Message._type_check, message.py:570-586 *)
  Definition type_check (t : vtyp) (allowed : list value) (v : value) (na : bool) : bool :=
    let mem x := existsb (fun y => py_eq y x) allowed in
    match t with
    | TStr | TInt => mem v
    | TList _ => match v with VList l => forallb mem l | _ => true end
    | _ => match v with VNone => na | _ => true end
    end.

  (** one parameter in Message.verify, lines 599-623 *)
  Definition verify_param (d : dict value) (a : ustr) (s : pspec) : res unit :=
    if ueqb a (u "*") then Ok tt
    else
      match dget d a with
      | None => if p_req s then Err EMissingRequiredAttribute else Ok tt
      | Some v =>
          if match p_typ s with TBool => false | _ => negb (truthy v) end
          then if p_req s then Err EMissingRequiredAttribute else Ok tt
          else
            match dget (cd_allowed C) a with
            | None => Ok tt
            | Some al => if type_check (p_typ s) al v (p_null s) then Ok tt else Err ENotAllowedValue
            end
      end.

  (** Message.verify, message.py:588-625: True or an exception *)
  Definition verify_base (d : dict value) : res bool :=
    do _ <- mapM (fun ks => verify_param d (fst ks) (snd ks)) (cd_param C) ; Ok true.

  (** Message.__setitem__, message.py:701-706; a KeyError raised inside _add_value
      would be caught as well, but none of its branches raises one *)
  Definition setitem (d : dict value) (k : ustr) (v : value) : dict value * res unit :=
    match dget (cd_param C) k with
    | None => (dset d k v, Ok tt)
    | Some s =>
        match add_val the_lib s v with
        | Ok (Some x) => (dset d k x, Ok tt)
        | Ok None => (d, Ok tt)
        | Err EKeyError => (dset d k v, Ok tt)
        | Err e => (d, Err e)
        end
    end.

  (** Message.__delitem__, message.py:728-729 *)
  Definition delitem (d : dict value) (k : ustr) : dict value * res unit :=
    if dhas d k then (ddel d k, Ok tt) else (d, Err EKeyError).

  (** Message.__getitem__, 636-643 *)
  Definition getitem (d : dict value) (k : ustr) : res value :=
    match dget d k with Some v => Ok v | None => Err EKeyError end.

  (** Message.get, 645-658 *)
  Definition get (d : dict value) (k : ustr) (default : value) : value :=
    match dget d k with Some v => v | None => default end.

  (** Message.extra, 739-748 *)
  Definition extra (d : dict value) : dict value :=
    dict_of (filter (fun kv => negb (dhas (cd_param C) (fst kv))) d).

  (** Message.only_extras, 750-761 *)
  Definition only_extras (d : dict value) : bool :=
    match filter (fun k => dhas (cd_param C) k) (dkeys d) with [] => true | _ => false end.

  (** Message.update, 763-775: ValueError for anything but a dictionary or message *)
  Definition update (d : dict value) (v : value) : dict value * res unit :=
    match v with
    | VDict e | VMsg _ e => (dupdate d e, Ok tt)
    | _ => (d, Err EValueError)
    end.

  (** Message.weed, 813-819 *)
  Definition weed (d : dict value) : dict value :=
    fold_left ddel (filter (fun k => negb (dhas (cd_param C) k)) (dkeys d)) d.

  (** Message.rm_blanks, 821-827 *)
  Definition rm_blanks (d : dict value) : dict value :=
    fold_left ddel
      (filter (fun k => match dget d k with Some v => negb (truthy v) | None => false end) (dkeys d)) d.

  (** Message.required_parameters, 829-833 *)
  Definition required_parameters : list ustr :=
    map fst (filter (fun ks => p_req (snd ks)) (cd_param C)).

  (** Message.value_type, 835-846 *)
  Definition value_type (k : ustr) : option vtyp := option_map p_typ (dget (cd_param C) k).

  (** Message.request, 681-699 (lax = False) *)
  Definition request (lax : bool) (d : dict value) (location : ustr) (fragment_enc : bool) : res ustr :=
    do q <- to_urlencoded C lax d ;
    Ok (if fragment_enc then location ++ 35 :: q
        else if has_char 63 location then location ++ 38 :: q
        else location ++ 63 :: q).

  (** by_schema, message.py:851-852 *)
  Definition by_schema (kw : dict value) : dict value :=
    dict_of (filter (fun kv => dhas (cd_param C) (fst kv)) kw).
End Methods.

(** add_non_standard, message.py:855-858: [msg1[key] = val] for the extras of msg2 *)
Definition add_non_standard (C1 C2 : clsdef) (d1 d2 : dict value) : dict value :=
  fold_left (fun d kv => if dhas (cd_param C1) (fst kv) then d else fst (setitem C1 d (fst kv) (snd kv)))
    (extra C2 d2) d1.

(** Message.__eq__, message.py:708-723 *)
Definition msg_eq (C1 C2 : clsdef) (d1 d2 : dict value) : bool :=
  ueqb (cd_name C1) (cd_name C2) && py_eq (VDict d1) (VDict d2).
