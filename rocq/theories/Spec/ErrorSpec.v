(** The exceptions a caller of the library has to expect. *)
From Coq Require Import List Bool.
From Verif Require Import Model.Cls Model.Value Model.Pspec.
Import ListNotations.

(** the exceptions of the library, exception.py, and ValueError with its subclass json.JSONDecodeError *)
Definition anticipated (e : exn) : Prop :=
  In e [EOidcMsgError; EMessageException; EMissingAttribute; ENotForMe; EIssuerMismatch; EFormatError; EVerificationError; EMissingRequiredValue;
        EMissingSigningKey; ETooManyValues; EDecodeError; ESchemeError; ENotAllowedValue; EMissingRequiredAttribute; EInvalidRequest;
        EAtHashError; ECHashError; EEXPError; EIATError; EValueError; EJSONDecodeError].

(** a parameter whose value is itself a message of some class *)
Definition holds_message (s : pspec) : Prop :=
  match p_deser s with
  | Some (DeMsgCls _) | Some (DeOneOf _) | Some (DeJsonCls _) | Some DeLink | Some DeEvidenceList => True
  | _ => False
  end.
