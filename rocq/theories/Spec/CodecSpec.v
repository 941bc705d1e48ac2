(** Character classes the codec properties speak about. *)
From Coq Require Import List NArith.
From Verif Require Import Base.Ustr.
Import ListNotations.
Open Scope N_scope.

(** A text Python can encode: no code point is a surrogate. *)
Definition encodable (s : ustr) : Prop :=
  Forall (fun c => c < 55296 \/ (57343 < c /\ c < 1114112)) s.

(** letters, digits and _ . - ~ % + *)
Definition filename_char (c : N) : Prop :=
  (65 <= c <= 90) \/ (97 <= c <= 122) \/ (48 <= c <= 57) \/
  c = 95 \/ c = 46 \/ c = 45 \/ c = 126 \/ c = 37 \/ c = 43.

(** no element contains a blank *)
Definition blank_free (l : list ustr) : Prop := Forall (fun s => ~ In 32 s) l.
