(** The classes of exceptions. *)
From Coq Require Import List NArith Bool String.
From Verif Require Import Base.Ustr Model.Value.
Import ListNotations.
Open Scope list_scope.

(** src/oidcmsg/exception.py:4-160: the classes with their base classes, in the order of the file *)
Definition exception_py : list (ustr * ustr) :=
  [(u "OidcMsgError", u "Exception"); (u "MissingAttribute", u "OidcMsgError"); (u "UnsupportedMethod", u "OidcMsgError");
   (u "MissingParameter", u "OidcMsgError"); (u "UnknownAssertionType", u "OidcMsgError"); (u "ParameterError", u "OidcMsgError");
   (u "URIError", u "OidcMsgError"); (u "ParseError", u "OidcMsgError"); (u "FailedAuthentication", u "OidcMsgError");
   (u "NotForMe", u "OidcMsgError"); (u "UnSupported", u "Exception"); (u "MessageException", u "OidcMsgError");
   (u "IssuerMismatch", u "OidcMsgError"); (u "RestrictionError", u "OidcMsgError"); (u "InvalidRedirectUri", u "Exception");
   (u "MissingPage", u "Exception"); (u "ModificationForbidden", u "Exception"); (u "RegistrationError", u "OidcMsgError");
   (u "CommunicationError", u "OidcMsgError"); (u "RequestError", u "OidcMsgError"); (u "AuthnToOld", u "OidcMsgError");
   (u "ImproperlyConfigured", u "OidcMsgError"); (u "SubMismatch", u "OidcMsgError"); (u "FormatError", u "OidcMsgError");
   (u "VerificationError", u "OidcMsgError"); (u "MissingRequiredValue", u "MessageException"); (u "MissingSigningKey", u "OidcMsgError");
   (u "TooManyValues", u "MessageException"); (u "DecodeError", u "MessageException"); (u "GrantExpired", u "OidcMsgError");
   (u "OldAccessToken", u "OidcMsgError"); (u "SchemeError", u "MessageException"); (u "NotAllowedValue", u "MessageException");
   (u "WrongSigningAlgorithm", u "MessageException"); (u "WrongEncryptionAlgorithm", u "MessageException"); (u "MissingRequiredAttribute", u "MessageException");
   (u "InvalidRequest", u "OidcMsgError"); (u "KeyIOError", u "OidcMsgError")].
(** src/oidcmsg/oidc/__init__.py:51-64 *)
Definition oidc_exceptions : list (ustr * ustr) :=
  [(u "AtHashError", u "VerificationError"); (u "CHashError", u "VerificationError"); (u "EXPError", u "VerificationError");
   (u "IATError", u "VerificationError")].
(** src/oidcmsg/time_util.py:34 and src/oidcmsg/storage/init.py:24 *)
Definition other_exceptions : list (ustr * ustr) := [(u "TimeUtilError", u "Exception"); (u "ConfigurationError", u "Exception")].
(** those of Python that the model has (Python 3 library reference, exception hierarchy and module json); used e.g. in
    src/oidcmsg/message.py:99-441.  Classes of cryptojwt are not in the tables. *)
Definition python_exceptions : list (ustr * ustr) :=
  [(u "Exception", u "BaseException"); (u "TypeError", u "Exception"); (u "ValueError", u "Exception"); (u "LookupError", u "Exception");
   (u "KeyError", u "LookupError"); (u "IndexError", u "LookupError"); (u "AttributeError", u "Exception"); (u "UnicodeError", u "ValueError");
   (u "UnicodeEncodeError", u "UnicodeError"); (u "JSONDecodeError", u "ValueError"); (u "NameError", u "Exception");
   (u "ArithmeticError", u "Exception"); (u "OverflowError", u "ArithmeticError"); (u "ZeroDivisionError", u "ArithmeticError"); (u "OSError", u "Exception")].
(** all of them; src/oidcmsg/exception.py:4-160 and the places above *)
Definition exception_bases : list (ustr * ustr) := exception_py ++ oidc_exceptions ++ other_exceptions ++ python_exceptions.

(** the class of an exception of the model (Model/Value.v); none for exceptions of cryptojwt, whose classes are defined
    elsewhere (imported in src/oidcmsg/message.py:7-17), and for what is no exception *)
Definition exn_class (e : exn) : option ustr :=
  match e with
  | ETypeError => Some (u "TypeError") | EValueError => Some (u "ValueError") | EKeyError => Some (u "KeyError") | EIndexError => Some (u "IndexError")
  | EAttributeError => Some (u "AttributeError") | EUnicodeEncodeError => Some (u "UnicodeEncodeError") | EJSONDecodeError => Some (u "JSONDecodeError")
  | ENameError => Some (u "NameError") | EOverflowError => Some (u "OverflowError") | EZeroDivisionError => Some (u "ZeroDivisionError")
  | EOSError => Some (u "OSError") | EOidcMsgError => Some (u "OidcMsgError") | EMessageException => Some (u "MessageException")
  | EMissingAttribute => Some (u "MissingAttribute") | ENotForMe => Some (u "NotForMe") | EIssuerMismatch => Some (u "IssuerMismatch")
  | EFormatError => Some (u "FormatError") | EVerificationError => Some (u "VerificationError") | EMissingRequiredValue => Some (u "MissingRequiredValue")
  | EMissingSigningKey => Some (u "MissingSigningKey") | ETooManyValues => Some (u "TooManyValues") | EDecodeError => Some (u "DecodeError")
  | ESchemeError => Some (u "SchemeError") | ENotAllowedValue => Some (u "NotAllowedValue")
  | EMissingRequiredAttribute => Some (u "MissingRequiredAttribute") | EInvalidRequest => Some (u "InvalidRequest")
  | EAtHashError => Some (u "AtHashError") | ECHashError => Some (u "CHashError") | EEXPError => Some (u "EXPError") | EIATError => Some (u "IATError")
  | ETimeUtilError => Some (u "TimeUtilError") | EConfigurationError => Some (u "ConfigurationError")
  | EUnsupportedAlgorithm | ENoSuitableSigningKeys | ECrypto | OutOfModel | OutOfFuel => None
  end.
(** does [except name] catch an exception of the class [c]?  The walk along the base classes, at most [n] steps; the table has
    no more than 60 classes.  Python semantics of e.g. src/oidcmsg/oidc/__init__.py:568-587 *)
Fixpoint catches_class (n : nat) (name c : ustr) : bool :=
  ueqb name c || match n with
                 | O => false
                 | S n => match dget exception_bases c with Some b => catches_class n name b | None => false end
                 end.
(** an [except] clause with several classes, e.g. src/oidcmsg/message.py:423 *)
Definition catches (names : list ustr) (e : exn) : bool :=
  match exn_class e with Some c => existsb (fun name => catches_class 60 name c) names | None => false end.
