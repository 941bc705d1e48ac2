(** Floating point numbers: the binary64 number nearest to a decimal fraction, as [float(text)] of CPython 3.11
    gives it for the numbers in JSON texts, and the text that [repr] gives a number; used through json.loads and
    json.dumps in src/oidcmsg/message.py:454, 557, 899-903.  A floating point number is kept as the rational number that it is; minus zero is the same as zero. *)
From Coq Require Import List NArith ZArith QArith_base Qreduction Bool.
From Verif Require Import Base.Ustr.
Import ListNotations.
Open Scope list_scope.
Open Scope Z_scope.

(** [n/d] divided by two to the power [e], as a fraction; part of float(), used in message.py:454, 899-903 *)
Definition scaled (n d e : Z) : Z * Z := (n * 2 ^ Z.max 0 (- e), d * 2 ^ Z.max 0 e).

(** the whole number nearest to [a/b], of two the even one; part of float(), used in message.py:454, 899-903 *)
Definition half_even (a b : Z) : Z :=
  let q := a / b in
  match Z.compare (2 * (a mod b)) b with
  | Lt => q
  | Gt => q + 1
  | Eq => if Z.even q then q else q + 1
  end.

(** the exponent of the binary64 numbers around [n/d]; part of float(), used in message.py:454, 899-903 *)
Definition binade (n d : Z) : Z :=
  if n =? 0 then -1074
  else let e := Z.log2 n - Z.log2 d - 52 in
       let (a, b) := scaled n d e in
       Z.max (-1074) (if a <? 2 ^ 52 * b then e - 1 else e).

(** the binary64 number nearest to [n/d] (both without sign); [None] is infinity; float(), used in message.py:454, 899-903 *)
Definition nearest (n d : Z) : option Q :=
  let e := binade n d in
  let (a, b) := scaled n d e in
  let m := half_even a b in
  if 2 ^ 1024 <=? m * 2 ^ Z.max 0 e then None
  else Some (Qred (m * 2 ^ Z.max 0 e # Z.to_pos (2 ^ Z.max 0 (- e)))).

(** the binary64 number nearest to [n] times ten to the power [k]; float(), used in message.py:454, 899-903 *)
Definition float_of (n k : Z) : option Q := nearest (n * 10 ^ Z.max 0 k) (10 ^ Z.max 0 (- k)).

(** ** arithmetic *)

(** the binary64 number nearest to a rational number, [None] if that is infinite: what CPython makes of the exact result of + and -
    for floating point numbers, and of an integer with one of them; oidc/__init__.py:803-826 *)
Definition round_flt (q : Q) : option Q :=
  if Qnum q <? 0 then option_map Qopp (nearest (- Qnum q) (Zpos (Qden q))) else nearest (Qnum q) (Zpos (Qden q)).

(** ** writing *)

(** how many decimal digits a whole number has; part of repr(), used in message.py:443-466 *)
Definition ndigits (n : Z) : Z := Z.of_nat (List.length (dec_N (Z.to_N n))).

(** the place of the decimal point: [n/d] is less than ten to this power and not less than a tenth of that; part of repr(), used in message.py:443-466 *)
Definition magnitude (n d : Z) : Z := if d <=? n then ndigits (n / d) else 1 - ndigits ((d - 1) / n).

(** the decimal numbers with [p] digits around [n/d], the nearer first; part of repr(), used in message.py:443-466 *)
Definition around (n d x : Z) : Z * Z :=
  let a := n * 10 ^ Z.max 0 (- x) in
  let b := d * 10 ^ Z.max 0 x in
  let h := half_even a b in
  (h, if h =? a / b then h + 1 else h - 1).

(** whether a decimal number is read as [q]; part of repr(), used in message.py:443-466 *)
Definition reads_back (q : Q) (h x : Z) : bool := match float_of h x with Some r => Qeq_bool r q | None => false end.

(** the shortest decimal number [h] times ten to the power [x] that is read as [q], of those the nearest: [p] digits or more, [more]
    attempts; part of repr(), used in message.py:443-466 *)
Fixpoint shortest (more : nat) (p : Z) (q : Q) (k : Z) : option (Z * Z) :=
  match more with
  | O => None
  | S m =>
      let (h, h') := around (Qnum q) (Zpos (Qden q)) (k - p) in
      if reads_back q h (k - p) then Some (h, k - p)
      else if reads_back q h' (k - p) then Some (h', k - p)
      else shortest m (p + 1) q k
  end.

(** without the zeros at the end; part of repr(), used in message.py:443-466 *)
Fixpoint trim0 (s : ustr) : ustr :=
  match s with
  | [] => []
  | c :: r => match trim0 r with [] => if N.eqb c 48 then [] else [c] | t => c :: t end
  end.

(** the digits and the place of the decimal point, as repr() writes them; used in message.py:443-466 *)
Definition pointed (ds : ustr) (k : Z) : ustr :=
  let n := Z.of_nat (List.length ds) in
  if (-4 <? k) && (k <=? 16) then
    if k <=? 0 then 48%N :: 46%N :: repeat 48%N (Z.to_nat (- k)) ++ ds
    else if n <=? k then ds ++ repeat 48%N (Z.to_nat (k - n)) ++ [46%N; 48%N]
    else firstn (Z.to_nat k) ds ++ 46%N :: skipn (Z.to_nat k) ds
  else
    let e := dec_N (Z.to_N (Z.abs (k - 1))) in
    firstn 1 ds ++ match skipn 1 ds with [] => [] | r => 46%N :: r end ++
    101%N :: (if k - 1 <? 0 then 45%N else 43%N) :: match e with [_] => 48%N :: e | _ => e end.

(** repr() of a binary64 number without sign; [None]: not a binary64 number; used in message.py:443-466 *)
Definition repr_pos (q : Q) : option ustr :=
  if Qnum q =? 0 then Some [48%N; 46%N; 48%N]
  else match shortest 17 1 q (magnitude (Qnum q) (Zpos (Qden q))) with
       | Some (h, x) =>
           let t := dec_N (Z.to_N h) in
           Some (pointed (trim0 t) (Z.of_nat (List.length t) + x))
       | None => None
       end.

(** repr(), used in message.py:443-466 *)
Definition float_repr (q : Q) : option ustr :=
  if Qnum q <? 0 then match repr_pos (Qopp q) with Some t => Some (45%N :: t) | None => None end else repr_pos q.
