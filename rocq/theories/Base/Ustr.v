(** Python [str] as a list of code points, with the methods oidcmsg uses. *)
From Coq Require Import List NArith ZArith Bool String Ascii Lia.
Import ListNotations.
Open Scope N_scope.

(** A Python string: its code points.  (CPython [str]; surrogates are allowed
    as single code points, as in Python.) *)
Definition ustr := list N.

(** ASCII string literals of the Python source. *)
Fixpoint u (s : string) : ustr :=
  match s with
  | EmptyString => []
  | String a r => N_of_ascii a :: u r
  end.
Arguments u : simpl never.

(** [==] on strings. *)
Fixpoint ueqb (a b : ustr) : bool :=
  match a, b with
  | [], [] => true
  | x :: a', y :: b' => (x =? y) && ueqb a' b'
  | _, _ => false
  end.

Lemma ueqb_eq : forall a b, ueqb a b = true <-> a = b.
Proof.
  induction a as [|x a IH]; destruct b as [|y b]; simpl; split; intro H;
    try reflexivity; try discriminate.
  - apply andb_true_iff in H. destruct H as [H1 H2].
    apply N.eqb_eq in H1. apply IH in H2. subst. reflexivity.
  - injection H as -> ->. rewrite N.eqb_refl. apply IH. reflexivity.
Qed.

Lemma ueqb_refl : forall a, ueqb a a = true.
Proof. intro a. apply ueqb_eq. reflexivity. Qed.

Lemma ueqb_neq : forall a b, ueqb a b = false <-> a <> b.
Proof.
  intros a b. split; intro H.
  - intro E. apply ueqb_eq in E. congruence.
  - destruct (ueqb a b) eqn:E; auto. apply ueqb_eq in E. contradiction.
Qed.

Lemma ueqb_sym : forall a b, ueqb a b = ueqb b a.
Proof.
  intros a b. destruct (ueqb a b) eqn:E.
  - apply ueqb_eq in E. subst. symmetry. apply ueqb_refl.
  - symmetry. apply ueqb_neq. apply ueqb_neq in E. congruence.
Qed.

(** texts are compared by their characters, e.g. message.py:672-679 *)
Definition ueq_dec : forall a b : ustr, {a = b} + {a <> b}.
Proof. apply list_eq_dec. apply N.eq_dec. Defined.

(** [x in s] for a single character. *)
Definition has_char (c : N) (s : ustr) : bool := existsb (N.eqb c) s.

(** membership of a string in a list of strings *)
Definition umem (x : ustr) (l : list ustr) : bool := existsb (ueqb x) l.

Lemma umem_In : forall x l, umem x l = true <-> In x l.
Proof.
  intros x l. unfold umem. rewrite existsb_exists. split.
  - intros [y [Hy He]]. apply ueqb_eq in He. subst. assumption.
  - intro H. exists x. split; auto. apply ueqb_refl.
Qed.

Lemma umem_not_In : forall x l, umem x l = false <-> ~ In x l.
Proof.
  intros. rewrite <- umem_In. destruct (umem x l); split; intros; congruence.
Qed.

(** [s.split(c)] for a one-character separator: never the empty list. *)
Fixpoint split_on (c : N) (s : ustr) : list ustr :=
  match s with
  | [] => [[]]
  | x :: r =>
      if x =? c then [] :: split_on c r
      else match split_on c r with
           | [] => [[x]]
           | h :: t => (x :: h) :: t
           end
  end.

(** [sep.join(l)] *)
Fixpoint join (sep : ustr) (l : list ustr) : ustr :=
  match l with
  | [] => []
  | [x] => x
  | x :: r => x ++ sep ++ join sep r
  end.

(** [s.startswith(p)] *)
Fixpoint startswith (p s : ustr) : bool :=
  match p, s with
  | [], _ => true
  | _ :: _, [] => false
  | x :: p', y :: s' => (x =? y) && startswith p' s'
  end.

(** [s.endswith(p)] *)
Definition endswith (p s : ustr) : bool := startswith (rev p) (rev s).

(** [p in s] (substring) *)
Fixpoint substr (p s : ustr) : bool :=
  startswith p s ||
  match s with
  | [] => false
  | _ :: s' => substr p s'
  end.

(** [s.partition(c)]: text before the first [c], whether it was found, rest. *)
Fixpoint partition1 (c : N) (s : ustr) : ustr * bool * ustr :=
  match s with
  | [] => ([], false, [])
  | x :: r =>
      if x =? c then ([], true, r)
      else match partition1 c r with
           | (a, f, b) => (x :: a, f, b)
           end
  end.

(** [str.isspace] on one code point (CPython _PyUnicode_IsWhitespace). *)
Definition is_space (c : N) : bool :=
  ((9 <=? c) && (c <=? 13)) || ((28 <=? c) && (c <=? 32)) ||
  (c =? 133) || (c =? 160) || (c =? 5760) ||
  ((8192 <=? c) && (c <=? 8202)) || (c =? 8232) || (c =? 8233) ||
  (c =? 8239) || (c =? 8287) || (c =? 12288).

(** str.lstrip, used by int() and urlparse, oidc/__init__.py:922 *)
Fixpoint lstrip_by (f : N -> bool) (s : ustr) : ustr :=
  match s with
  | [] => []
  | x :: r => if f x then lstrip_by f r else s
  end.

(** str.strip, used by int(), message.py:322-441 *)
Definition strip_by (f : N -> bool) (s : ustr) : ustr :=
  rev (lstrip_by f (rev (lstrip_by f s))).

(** [s.strip()] *)
Definition strip (s : ustr) : ustr := strip_by is_space s.

(** [s.replace(c, d)] for single characters *)
Definition replace_char (c d : N) (s : ustr) : ustr :=
  map (fun x => if x =? c then d else x) s.

(** character classes of strptime, time_util.py:262-281 *)
Definition is_digit (c : N) : bool := (48 <=? c) && (c <=? 57).
(** character classes of urlparse, oidc/__init__.py:922 *)
Definition is_upper (c : N) : bool := (65 <=? c) && (c <=? 90).
(** character classes of urlparse, oidc/__init__.py:922 *)
Definition is_lower (c : N) : bool := (97 <=? c) && (c <=? 122).
(** character classes of urlparse, oidc/__init__.py:922 *)
Definition is_alpha (c : N) : bool := is_upper c || is_lower c.
(** the model of strptime and int is for ASCII texts, time_util.py:262-281 *)
Definition is_ascii (c : N) : bool := c <? 128.

(** code points that are Unicode scalar values (encodable in UTF-8) *)
Definition scalar (c : N) : bool :=
  (c <? 55296) || ((57343 <? c) && (c <? 1114112)).
(** the text has no surrogates, so that encode() does not raise, message.py:80-146 *)
Definition scalars (s : ustr) : bool := forallb scalar s.

(** decimal rendering of integers, [str(z)] *)
Fixpoint dec_uint (d : Decimal.uint) : ustr :=
  match d with
  | Decimal.Nil => []
  | Decimal.D0 d => 48 :: dec_uint d
  | Decimal.D1 d => 49 :: dec_uint d
  | Decimal.D2 d => 50 :: dec_uint d
  | Decimal.D3 d => 51 :: dec_uint d
  | Decimal.D4 d => 52 :: dec_uint d
  | Decimal.D5 d => 53 :: dec_uint d
  | Decimal.D6 d => 54 :: dec_uint d
  | Decimal.D7 d => 55 :: dec_uint d
  | Decimal.D8 d => 56 :: dec_uint d
  | Decimal.D9 d => 57 :: dec_uint d
  end.

(** str of a natural number, message.py:80-146 *)
Definition dec_N (n : N) : ustr := dec_uint (N.to_uint n).
(** str(int), message.py:80-146 *)
Definition dec_Z (z : Z) : ustr :=
  match z with
  | Z0 => [48]
  | Zpos p => dec_N (Npos p)
  | Zneg p => 45 :: dec_N (Npos p)
  end.

(** value of a digit string, most significant first *)
Fixpoint num_of_digits (acc : N) (s : ustr) : N :=
  match s with
  | [] => acc
  | c :: r => num_of_digits (acc * 10 + (c - 48)) r
  end.

(** longest prefix satisfying [f], and the rest *)
Fixpoint span (f : N -> bool) (s : ustr) : ustr * ustr :=
  match s with
  | [] => ([], [])
  | x :: r => if f x then let (a, b) := span f r in (x :: a, b) else ([], s)
  end.
