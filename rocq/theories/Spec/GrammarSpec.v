(** C151: the grammar of JSON texts (RFC 8259) and what the texts mean; numbers with fraction or exponent that are not below the largest
    binary64 number have no meaning here. *)
From Coq Require Import List NArith ZArith QArith_base Qpower Bool String.
From Verif Require Import Base.Ustr Model.Value Spec.FloatSpec.
Import ListNotations.
Open Scope list_scope.
Open Scope N_scope.

(** white space *)
Definition blank (w : ustr) : Prop := forall c, In c w -> c = 32 \/ c = 9 \/ c = 10 \/ c = 13.

(** hexadecimal digits *)
Definition hex_digit (c x : N) : Prop :=
  (48 <= c <= 57 /\ x = c - 48) \/ (65 <= c <= 70 /\ x = c - 55) \/ (97 <= c <= 102 /\ x = c - 87).
Definition hex_text (h : ustr) (x : N) : Prop := exists a b c d a' b' c' d', h = [a; b; c; d] /\
  hex_digit a a' /\ hex_digit b b' /\ hex_digit c c' /\ hex_digit d d' /\ x = ((a' * 16 + b') * 16 + c') * 16 + d'.
(** surrogates *)
Definition high (x : N) : Prop := 55296 <= x <= 56319.
Definition low (x : N) : Prop := 56320 <= x <= 57343.
Definition low_follows (t : ustr) : Prop := exists h y r, t = 92 :: 117 :: h ++ r /\ hex_text h y /\ low y.

(** between the quotes of a string: the text, the characters that it stands for *)
Inductive chars : ustr -> ustr -> Prop :=
| chars_end : chars [] []
| chars_plain : forall c t s, 32 <= c -> c <> 34 -> c <> 92 -> chars t s -> chars (c :: t) (c :: s)
| chars_short : forall e c t s, In (e, c) [(34, 34); (92, 92); (47, 47); (98, 8); (102, 12); (110, 10); (114, 13); (116, 9)] ->
    chars t s -> chars (92 :: e :: t) (c :: s)
| chars_unit : forall h x t s, hex_text h x -> ~ (high x /\ low_follows t) -> chars t s -> chars (92 :: 117 :: h ++ t) (x :: s)
| chars_pair : forall h x h' y t s, hex_text h x -> high x -> hex_text h' y -> low y -> chars t s ->
    chars (92 :: 117 :: h ++ 92 :: 117 :: h' ++ t) (65536 + (x - 55296) * 1024 + (y - 56320) :: s).

(** whole numbers: no leading zeros *)
Definition decimal (ds : ustr) : N := fold_left (fun n c => n * 10 + (c - 48)) ds 0.
Definition natural (t : ustr) (n : N) : Prop :=
  (t = [48] /\ n = 0) \/ (exists c ds, t = c :: ds /\ 49 <= c <= 57 /\ (forall x, In x ds -> 48 <= x <= 57) /\ n = decimal t).
(** numbers with a fraction or an exponent: [n] times ten to the power [k] *)
Definition digits (ds : ustr) : Prop := ds <> [] /\ forall x, In x ds -> 48 <= x <= 57.
Inductive fraction : ustr -> ustr -> Prop :=
| fraction_none : fraction [] []
| fraction_some : forall ds, digits ds -> fraction (46 :: ds) ds.
Inductive exponent : ustr -> Z -> Prop :=
| exponent_none : exponent [] 0
| exponent_plain : forall c ds, c = 101 \/ c = 69 -> digits ds -> exponent (c :: ds) (Z.of_N (decimal ds))
| exponent_plus : forall c ds, c = 101 \/ c = 69 -> digits ds -> exponent (c :: 43 :: ds) (Z.of_N (decimal ds))
| exponent_minus : forall c ds, c = 101 \/ c = 69 -> digits ds -> exponent (c :: 45 :: ds) (- Z.of_N (decimal ds)).
Definition scientific (t : ustr) (n k : Z) : Prop := exists it i ft fs xt x, t = it ++ ft ++ xt /\ natural it i /\ fraction ft fs /\ exponent xt x /\
  ft ++ xt <> [] /\ n = Z.of_N (decimal (it ++ fs)) /\ k = (x - Z.of_nat (List.length fs))%Z.
(** the binary64 number that such a number is rounded to *)
Definition read_as (n k : Z) (q : Q) : Prop := rounds (inject_Z n * 10 ^ k) q.

(** of members with the same name the last counts, at the place of the first *)
Fixpoint firsts (l : list ustr) : list ustr :=
  match l with [] => [] | k :: r => k :: filter (fun x => negb (ueqb x k)) (firsts r) end.
Definition object_of (l : list (ustr * value)) (d : dict value) : Prop :=
  map fst d = firsts (map fst l) /\
  forall k v, In (k, v) d <-> exists l1 l2, l = l1 ++ (k, v) :: l2 /\ ~ In k (map fst l2).

(** the text of a value, without white space around it; those of the elements and members include the
    closing bracket *)
Inductive reads : ustr -> value -> Prop :=
| reads_null : reads (u "null") VNone
| reads_true : reads (u "true") (VBool true)
| reads_false : reads (u "false") (VBool false)
| reads_nat : forall t n, natural t n -> reads t (VInt (Z.of_N n))
| reads_neg : forall t n, natural t n -> reads (45 :: t) (VInt (- Z.of_N n))
| reads_flt : forall t n k q, scientific t n k -> read_as n k q -> reads t (VFlt q)
| reads_negflt : forall t n k q, scientific t n k -> read_as n k q -> reads (45 :: t) (VFlt (- q))
| reads_str : forall t s, chars t s -> reads (34 :: t ++ [34]) (VStr s)
| reads_list0 : forall w, blank w -> reads (91 :: w ++ [93]) (VList [])
| reads_list : forall w t l, blank w -> elements t l -> reads (91 :: w ++ t) (VList l)
| reads_obj0 : forall w, blank w -> reads (123 :: w ++ [125]) (VDict [])
| reads_obj : forall w t l d, blank w -> members t l -> object_of l d -> reads (123 :: w ++ t) (VDict d)
with elements : ustr -> list value -> Prop :=
| elements_last : forall t v w, reads t v -> blank w -> elements (t ++ w ++ [93]) [v]
| elements_more : forall t v w w' t' l, reads t v -> blank w -> blank w' -> elements t' l -> elements (t ++ w ++ 44 :: w' ++ t') (v :: l)
with members : ustr -> list (ustr * value) -> Prop :=
| members_last : forall kt k w w' t v w'', chars kt k -> blank w -> blank w' -> reads t v -> blank w'' ->
    members (34 :: kt ++ 34 :: w ++ 58 :: w' ++ t ++ w'' ++ [125]) [(k, v)]
| members_more : forall kt k w w' t v w'' w3 t' l, chars kt k -> blank w -> blank w' -> reads t v -> blank w'' -> blank w3 -> members t' l ->
    members (34 :: kt ++ 34 :: w ++ 58 :: w' ++ t ++ w'' ++ 44 :: w3 ++ t') ((k, v) :: l).
Definition json_text (t : ustr) (v : value) : Prop := exists w t' w', blank w /\ blank w' /\ reads t' v /\ t = w ++ t' ++ w'.
