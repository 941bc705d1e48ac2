(** C152: what the text of a query means (application/x-www-form-urlencoded, with UTF-8). *)
From Coq Require Import List NArith Bool.
From Verif Require Import Base.Ustr Spec.GrammarSpec.
Import ListNotations.
Open Scope list_scope.
Open Scope N_scope.

(** the bytes of a character in UTF-8 (RFC 3629) *)
Definition utf8_bytes (c : N) (bs : list N) : Prop :=
  (c < 128 /\ bs = [c]) \/
  (128 <= c < 2048 /\ exists a b, c = a * 64 + b /\ b < 64 /\ bs = [192 + a; 128 + b]) \/
  (2048 <= c < 65536 /\ ~ 55296 <= c <= 57343 /\
     exists a b d, c = (a * 64 + b) * 64 + d /\ b < 64 /\ d < 64 /\ bs = [224 + a; 128 + b; 128 + d]) \/
  (65536 <= c < 1114112 /\
     exists a b d e, c = ((a * 64 + b) * 64 + d) * 64 + e /\ b < 64 /\ d < 64 /\ e < 64 /\ bs = [240 + a; 128 + b; 128 + d; 128 + e]).
(** percent-encoded bytes; the digits in either case *)
Inductive escapes : ustr -> list N -> Prop :=
| escapes_end : escapes [] []
| escapes_byte : forall h l a b t bs, hex_digit h a -> hex_digit l b -> escapes t bs -> escapes (37 :: h :: l :: t) (a * 16 + b :: bs).
(** two hexadecimal digits come next *)
Definition hex_follows (t : ustr) : Prop := exists h l r a b, t = h :: l :: r /\ hex_digit h a /\ hex_digit l b.

(** a name or a value: the text, the characters that it stands for.  A percent sign without two
    hexadecimal digits stands for itself. *)
Inductive spells : ustr -> ustr -> Prop :=
| spells_end : spells [] []
| spells_plain : forall c t s, c <> 37 -> c <> 43 -> spells t s -> spells (c :: t) (c :: s)
| spells_plus : forall t s, spells t s -> spells (43 :: t) (32 :: s)
| spells_escaped : forall w c bs t s, utf8_bytes c bs -> escapes w bs -> spells t s -> spells (w ++ t) (c :: s)
| spells_percent : forall t s, ~ hex_follows t -> spells t s -> spells (37 :: t) (37 :: s).

(** a field; fields without a value count for nothing *)
Inductive field_reads : ustr -> list (ustr * ustr) -> Prop :=
| field_pair : forall n v n' v', ~ In 61 n -> v <> [] -> spells n n' -> spells v v' -> field_reads (n ++ 61 :: v) [(n', v')]
| field_blank : forall n, ~ In 61 n -> field_reads (n ++ [61]) []
| field_bare : forall f, ~ In 61 f -> field_reads f [].
(** the fields of a query *)
Inductive query_reads : ustr -> list (ustr * ustr) -> Prop :=
| query_last : forall f l, ~ In 38 f -> field_reads f l -> query_reads f l
| query_more : forall f l q l', ~ In 38 f -> field_reads f l -> query_reads q l' -> query_reads (f ++ 38 :: q) (l ++ l').
(** the values of each name, in their order; the names in the order of their first fields *)
Definition collected (l : list (ustr * ustr)) (g : list (ustr * list ustr)) : Prop :=
  map fst g = firsts (map fst l) /\
  forall k vs, In (k, vs) g -> vs = map snd (filter (fun kv => ueqb k (fst kv)) l).
