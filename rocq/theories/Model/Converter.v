(** src/oidcmsg/storage/converter.py: the key and value converters of the file storage. *)
From Coq Require Import List NArith Bool.
From Verif Require Import Base.Ustr Base.Percent Model.Value Model.Json.
Import ListNotations.

(** QPKey.serialize, converter.py:6-8; a lone surrogate is a UnicodeEncodeError *)
Definition qpkey_serialize (k : ustr) : res ustr :=
  match quote_plus k with Some q => Ok q | None => Err EUnicodeEncodeError end.
(** QPKey.deserialize, converter.py:10-11 *)
Definition qpkey_deserialize (s : ustr) : ustr := unquote_plus s.

(** JSON.serialize and JSON.deserialize, converter.py:14-19 *)
Definition json_conv_serialize (v : value) : res ustr := json_dumps v.
(** JSON.deserialize, converter.py:18-19 *)
Definition json_conv_deserialize (s : ustr) : res value := json_loads s.

(** PassThru, converter.py:22-27: the value itself; the storage writes it with
    [fp.write], which takes a text only (TypeError otherwise, abfile.py:122) *)
Definition passthru_serialize (v : value) : res ustr :=
  match v with VStr s => Ok s | _ => Err ETypeError end.
(** PassThru.deserialize, converter.py:26-27 *)
Definition passthru_deserialize (s : ustr) : res value := Ok (VStr s).
