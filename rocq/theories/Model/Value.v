(** Python values as far as oidcmsg handles them, with ==, truthiness, [in],
    [len], ordering, + and -, and insertion-ordered dictionaries. *)
From Coq Require Import List NArith ZArith QArith Bool String Lia.
From Verif Require Import Base.Ustr Model.Cls Model.Float.
Import ListNotations.
Open Scope list_scope.
Open Scope N_scope.

(** Exceptions.  The Python built-ins, the oidcmsg classes of
    src/oidcmsg/exception.py:4-159, src/oidcmsg/oidc/__init__.py:51-64 and
    src/oidcmsg/time_util.py:34, those of cryptojwt that are named in the
    sources, [ECrypto] for any other exception of the crypto library, and two
    artefacts of the model: [OutOfModel] (the program leaves the modelled
    fragment, e.g. repr of a dictionary) and [OutOfFuel].  Exception arguments
    (message texts) are not modelled. *)
Inductive exn :=
| ETypeError | EValueError | EKeyError | EIndexError | EAttributeError
| EUnicodeEncodeError | EJSONDecodeError | ENameError | EOverflowError | EZeroDivisionError | EOSError
| EOidcMsgError | EMessageException | EMissingAttribute | ENotForMe | EIssuerMismatch
| EFormatError | EVerificationError | EMissingRequiredValue | EMissingSigningKey
| ETooManyValues | EDecodeError | ESchemeError | ENotAllowedValue
| EMissingRequiredAttribute | EInvalidRequest
| EAtHashError | ECHashError | EEXPError | EIATError | ETimeUtilError
| EUnsupportedAlgorithm | ENoSuitableSigningKeys | ECrypto | EConfigurationError
| OutOfModel | OutOfFuel.

(** exceptions are compared by class in [except], e.g. message.py:604-623 *)
Definition exn_eq_dec : forall a b : exn, {a = b} + {a <> b}.
Proof. decide equality. Defined.

(** artefacts of the model, never caught by a modelled [except];
    no counterpart in /repo; e.g. message.py:322-441 has no such exception *)
Definition artefact (e : exn) : bool :=
  match e with OutOfModel | OutOfFuel => true | _ => false end.

(** result of a computation that may raise; Python semantics, used throughout message.py:29-1014 *)
Inductive res (A : Type) := Ok (a : A) | Err (e : exn).
Arguments Ok {A} a.
Arguments Err {A} e.

(** statements in sequence; Python semantics, used throughout message.py:29-1014 *)
Definition bind {A B} (r : res A) (f : A -> res B) : res B :=
  match r with Ok a => f a | Err e => Err e end.
Notation "'do' x <- r ; f" := (bind r (fun x => f))
  (at level 200, x pattern, r at level 100, f at level 200).

(** no exception was raised; Python semantics, used throughout message.py:29-1014 *)
Definition is_ok {A} (r : res A) : bool := match r with Ok _ => true | Err _ => false end.

(** Python values.  Simplifications: dictionary keys are strings; floats are
    arbitrary rationals (no NaN or infinity); a message is its class and the
    content of its [_dict] (the attributes lax, jwt, jws_header, jwe_header of
    nested messages are not kept). Python semantics, used throughout message.py:29-1014 *)
Inductive value :=
| VNone
| VBool (b : bool)
| VInt (z : Z)
| VFlt (q : Q)
| VStr (s : ustr)
| VList (l : list value)
| VDict (d : list (ustr * value))
| VMsg (c : cls) (d : list (ustr * value)).

(** ** insertion-ordered dictionaries with string keys *)
Section Dict.
  Context {A : Type}.
  (** dictionaries in insertion order; Python semantics, used throughout message.py:29-1014 *)
  Definition dict := list (ustr * A).

  (** [d.get(k)]; message.py:636-658 *)
  Fixpoint dget (d : dict) (k : ustr) : option A :=
    match d with
    | [] => None
    | (k', v) :: r => if ueqb k k' then Some v else dget r k
    end.

  (** [k in d]; message.py:672-679 *)
  Definition dhas (d : dict) (k : ustr) : bool :=
    match dget d k with Some _ => true | None => false end.

  (** [d[k] = v]: keeps the position of an existing key, appends a new one; message.py:701-706 *)
  Fixpoint dset (d : dict) (k : ustr) (v : A) : dict :=
    match d with
    | [] => [(k, v)]
    | (k', v') :: r => if ueqb k k' then (k', v) :: r else (k', v') :: dset r k v
    end.

  (** [del d[k]] (no effect here when the key is missing); message.py:728-729 *)
  Definition ddel (d : dict) (k : ustr) : dict :=
    filter (fun kv => negb (ueqb k (fst kv))) d.

  (** [list(d.keys())]; message.py:627-634 *)
  Definition dkeys (d : dict) : list ustr := map fst d.

  (** [d.update(e)]; message.py:763-775 *)
  Definition dupdate (d e : dict) : dict :=
    fold_left (fun d kv => dset d (fst kv) (snd kv)) e d.

  (** [dict(pairs)]; message.py:273-320 *)
  Definition dict_of (l : list (ustr * A)) : dict := dupdate [] l.
End Dict.
Arguments dict A : clear implicits.

(** ** numbers; Numbers are compared in oidc/__init__.py:803-826. *)
Definition num_of (v : value) : option Q :=
  match v with
  | VBool b => Some (inject_Z (if b then 1 else 0)%Z)
  | VInt z => Some (inject_Z z)
  | VFlt q => Some q
  | _ => None
  end.

(** [a == b].  Dictionaries compare without order; bool, int and float compare as
    numbers; messages compare by class *name* and content
    (src/oidcmsg/message.py:708-723). *)
Fixpoint py_eq (a b : value) : bool :=
  match a, b with
  | VNone, VNone => true
  | VStr s, VStr t => ueqb s t
  | VList l, VList m =>
      (fix go (l m : list value) : bool :=
         match l, m with
         | [], [] => true
         | x :: l', y :: m' => py_eq x y && go l' m'
         | _, _ => false
         end) l m
  | VDict d, VDict e =>
      Nat.eqb (List.length d) (List.length e) &&
      (fix go (d : list (ustr * value)) : bool :=
         match d with
         | [] => true
         | (k, x) :: d' =>
             match dget e k with Some y => py_eq x y && go d' | None => false end
         end) d
  | VMsg c d, VMsg c' e =>
      ueqb (cls_name c) (cls_name c') &&
      (Nat.eqb (List.length d) (List.length e) &&
      (fix go (d : list (ustr * value)) : bool :=
         match d with
         | [] => true
         | (k, x) :: d' =>
             match dget e k with Some y => py_eq x y && go d' | None => false end
         end) d)
  | _, _ =>
      match num_of a, num_of b with
      | Some p, Some q => Qeq_bool p q
      | _, _ => false
      end
  end.

(** == of lists, oidc/__init__.py:1185-1220 *)
Definition py_eq_list (l m : list value) : bool := py_eq (VList l) (VList m).
(** == of dictionaries, oidc/session.py:114 *)
Definition py_eq_dict (d e : dict value) : bool := py_eq (VDict d) (VDict e).

(** [bool(v)]; message.py:80-146 *)
Definition truthy (v : value) : bool :=
  match v with
  | VNone => false
  | VBool b => b
  | VInt z => negb (Z.eqb z 0)
  | VFlt q => negb (Qeq_bool q 0)
  | VStr s => match s with [] => false | _ => true end
  | VList l => match l with [] => false | _ => true end
  | VDict d => match d with [] => false | _ => true end
  | VMsg _ d => match d with [] => false | _ => true end
  end.

(** hash(v) does not raise: [in] of a dictionary, oidc/__init__.py:301 *)
Definition hashable (v : value) : bool :=
  match v with VList _ | VDict _ | VMsg _ _ => false | _ => true end.

(** [x in c]; oidc/__init__.py:380, 489-511 *)
Definition py_in (x c : value) : res bool :=
  match c with
  | VList l => Ok (existsb (fun y => py_eq y x) l)
  | VStr s => match x with VStr p => Ok (substr p s) | _ => Err ETypeError end
  | VDict d | VMsg _ d =>
      match x with
      | VStr k => Ok (dhas d k)
      | _ => if hashable x then Ok false else Err ETypeError
      end
  | _ => Err ETypeError
  end.

(** [len(v)]; oidc/__init__.py:509, 785 *)
Definition py_len (v : value) : res N :=
  match v with
  | VStr s => Ok (N.of_nat (List.length s))
  | VList l => Ok (N.of_nat (List.length l))
  | VDict d | VMsg _ d => Ok (N.of_nat (List.length d))
  | _ => Err ETypeError
  end.

(** lexicographic [<] on strings; oidc/__init__.py:803-826 *)
Fixpoint ultb (a b : ustr) : bool :=
  match a, b with
  | [], [] => false
  | [], _ => true
  | _, [] => false
  | x :: a', y :: b' => (x <? y) || ((x =? y) && ultb a' b')
  end.

(** [a < b] (lists are outside the model); oidc/__init__.py:803-826 *)
Definition py_lt (a b : value) : res bool :=
  match num_of a, num_of b with
  | Some p, Some q => Ok (match Qcompare p q with Lt => true | _ => false end)
  | _, _ =>
      match a, b with
      | VStr s, VStr t => Ok (ultb s t)
      | VList _, VList _ => Err OutOfModel
      | _, _ => Err ETypeError
      end
  end.
(** [a > b]; oidc/__init__.py:803-826 *)
Definition py_gt (a b : value) : res bool := py_lt b a.

(** integers and truth values, oidc/__init__.py:803-826 *)
Definition int_of (v : value) : option Z :=
  match v with VBool b => Some (if b then 1 else 0)%Z | VInt z => Some z | _ => None end.
(** floats, oidc/__init__.py:803-826 *)
Definition is_flt (v : value) : bool := match v with VFlt _ => true | _ => false end.

(** a number as a floating point number, [None] if it is too large; oidc/__init__.py:803-826 *)
Definition flt_of (v : value) : option Q :=
  match v with
  | VFlt q => Some q
  | _ => match int_of v with Some z => round_flt (inject_Z z) | None => None end
  end.
(** + and - of two numbers that are not both integers; oidc/__init__.py:803-826.  Simplification: OutOfModel where an integer is too
    large for a floating point number (OverflowError) and where the result is infinite. *)
Definition flt_op (op : Q -> Q -> Q) (a b : value) : res value :=
  match flt_of a, flt_of b with
  | Some p, Some q => match round_flt (op p q) with Some r => Ok (VFlt r) | None => Err OutOfModel end
  | _, _ => Err OutOfModel
  end.

(** [a + b]; oidc/__init__.py:803-826 *)
Definition py_add (a b : value) : res value :=
  match int_of a, int_of b with
  | Some x, Some y => Ok (VInt (x + y)%Z)
  | _, _ =>
      match num_of a, num_of b with
      | Some _, Some _ => flt_op Qplus a b
      | _, _ =>
          match a, b with
          | VStr s, VStr t => Ok (VStr (s ++ t))
          | VList l, VList m => Ok (VList (l ++ m))
          | _, _ => Err ETypeError
          end
      end
  end.
(** [a - b]; oidc/__init__.py:803-826 *)
Definition py_sub (a b : value) : res value :=
  match int_of a, int_of b with
  | Some x, Some y => Ok (VInt (x - y)%Z)
  | _, _ =>
      match num_of a, num_of b with
      | Some _, Some _ => flt_op Qminus a b
      | _, _ => Err ETypeError
      end
  end.

(** [str(v)]; repr of containers is outside the model; message.py:80-146 *)
Definition py_str (v : value) : res ustr :=
  match v with
  | VNone => Ok (u "None")
  | VBool true => Ok (u "True")
  | VBool false => Ok (u "False")
  | VInt z => Ok (dec_Z z)
  | VFlt q => match float_repr q with Some t => Ok t | None => Err OutOfModel end
  | VStr s => Ok s
  | _ => Err OutOfModel
  end.

(** [int(s)] for a string: surrounding white space, a sign, digits with single
    underscores between them.  Strings with non-ASCII characters (other decimal
    digits) are outside the model; CPython's limit of 4300 digits is ignored. *)
Fixpoint digits_us (s : ustr) (prev_digit : bool) (acc : N) : option N :=
  match s with
  | [] => if prev_digit then Some acc else None
  | c :: r =>
      if is_digit c then digits_us r true (acc * 10 + (c - 48))
      else if (c =? 95) && prev_digit then
        match r with
        | d :: _ => if is_digit d then digits_us r false acc else None
        | [] => None
        end
      else None
  end.
(** int(s), message.py:322-441, time_util.py:91-121.  Simplification: texts with other than ASCII characters are OutOfModel,
    and the limit of 4300 digits of newer Pythons is left out. *)
Definition py_int_str (s : ustr) : res Z :=
  if forallb is_ascii s then
    match strip s with
    | [] => Err EValueError
    | c :: r =>
        if c =? 45 then
          match digits_us r false 0 with Some n => Ok (- Z.of_N n)%Z | None => Err EValueError end
        else if c =? 43 then
          match digits_us r false 0 with Some n => Ok (Z.of_N n) | None => Err EValueError end
        else
          match digits_us (c :: r) false 0 with Some n => Ok (Z.of_N n) | None => Err EValueError end
    end
  else Err OutOfModel.

(** truncation towards zero, [int(q)]; message.py:322-441 *)
Definition Qtrunc (q : Q) : Z := Z.quot (Qnum q) (Z.pos (Qden q)).

(** [int(v)]; message.py:322-441 *)
Definition py_int (v : value) : res Z :=
  match v with
  | VBool b => Ok (if b then 1 else 0)%Z
  | VInt z => Ok z
  | VFlt q => Ok (Qtrunc q)
  | VStr s => py_int_str s
  | _ => Err ETypeError
  end.

(** [isinstance(v, Message)]; message.py:236-271 *)
Definition is_msg (v : value) : bool := match v with VMsg _ _ => true | _ => false end.

(** [issubclass(c, b)]; message.py:322-441, 571-586 *)
Definition subclass (c b : cls) : bool :=
  existsb (fun x => if cls_eq_dec x b then true else false) (cls_mro c).

(** [v.items()] on a dictionary or message, AttributeError otherwise; message.py:273-320 *)
Definition items (v : value) : res (dict value) :=
  match v with VDict d | VMsg _ d => Ok d | _ => Err EAttributeError end.

(** ** well-formed values: no dictionary has a key twice (true of every Python
    dictionary; the representation as a list must be told); message.py:29-47 *)
Fixpoint wfv (v : value) : Prop :=
  match v with
  | VList l => (fix go (l : list value) : Prop :=
                  match l with [] => True | x :: r => wfv x /\ go r end) l
  | VDict d | VMsg _ d =>
      NoDup (map fst d) /\
      (fix go (d : list (ustr * value)) : Prop :=
         match d with [] => True | (_, x) :: r => wfv x /\ go r end) d
  | _ => True
  end.
