(** serialize and deserialize, which choose a method by its name, and is_error_message. *)
From Coq Require Import List NArith Bool String.
From Verif Require Import Base.Ustr Model.Cls Model.Value Model.Pspec Model.Tables Model.Message.
Import ListNotations.
Open Scope list_scope.

(** the names after "to_" and "from_" of the methods of class Message (message.py:80,236,443,468,777 and
    177,273,456,482,794); no subclass has further ones *)
Definition ser_methods : list ustr := [u "urlencoded"; u "dict"; u "json"; u "jwt"; u "jwe"].

(** [m.serialize(method)], message.py:147-159, without further keyword arguments; [lax] is the attribute.
    A dictionary is the result of to_dict.  to_jwt without a key is outside of the model, to_jwe demands
    positional arguments.  An unknown attribute is an AttributeError. *)
Definition serialize (C : clsdef) (lax : bool) (d : dict value) (method : ustr) : res value :=
  if ueqb method (u "urlencoded") then do t <- to_urlencoded C lax d ; Ok (VStr t)
  else if ueqb method (u "dict") then do r <- to_dict C d ; Ok (VDict r)
  else if ueqb method (u "json") then do t <- to_json C d ; Ok (VStr t)
  else if ueqb method (u "jwt") then Err OutOfModel
  else if ueqb method (u "jwe") then Err ETypeError
  else Err EAttributeError.

(** [m.deserialize(info, method)], message.py:161-175, without further keyword arguments: from_jwt and from_jwe
    demand a second positional argument *)
Definition deserialize (C : clsdef) (d : dict value) (info : value) (method : ustr) : dict value * res unit :=
  if ueqb method (u "urlencoded") then from_urlencoded_gen the_lib (cd_param C) d info
  else if ueqb method (u "dict") then from_dict C d info
  else if ueqb method (u "json") then from_json_gen the_lib (cd_param C) d info
  else if ueqb method (u "jwt") || ueqb method (u "jwe") then (d, Err ETypeError)
  else (d, Err EFormatError).

(** is_error_message, oauth2/__init__.py:24-28 *)
Definition is_error_message (d : dict value) : bool := dhas d (u "error").
