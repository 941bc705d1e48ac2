(** Texts that Python reads as numbers ("Integer literals", "float()" of the library reference), and durations. *)
From Coq Require Import List NArith ZArith Bool String.
From Verif Require Import Base.Ustr Model.Value Model.TimeUtil.
Import ListNotations.
Open Scope list_scope.
Open Scope N_scope.

(** ASCII digits, with single underscores between them *)
Inductive numeral : ustr -> N -> Prop :=
| NuOne : forall c, 48 <= c <= 57 -> numeral [c] (c - 48)
| NuMore : forall s n c, numeral s n -> 48 <= c <= 57 -> numeral (s ++ [c]) (n * 10 + (c - 48))
| NuSep : forall s n c, numeral s n -> 48 <= c <= 57 -> numeral (s ++ [95; c]) (n * 10 + (c - 48)).
Definition sign (s : ustr) : Prop := s = [] \/ s = u "+" \/ s = u "-".
(** white space of ASCII *)
Definition blanks (s : ustr) : Prop := forall c, In c s -> 9 <= c <= 13 \/ 28 <= c <= 32.
Definition ascii (s : ustr) : Prop := forall c, In c s -> c < 128.
(** [s] is the integer [z] *)
Definition int_text (s : ustr) (z : Z) : Prop := exists a g t b n, s = a ++ g ++ t ++ b /\ blanks a /\ blanks b /\ sign g /\ numeral t n /\
  z = (if ueqb g (u "-") then - Z.of_N n else Z.of_N n)%Z.

Definition digits (s : ustr) : Prop := exists n, numeral s n.
Inductive mantissa : ustr -> Prop :=
| MaInt : forall d, digits d -> mantissa d
| MaPoint : forall d, digits d -> mantissa (d ++ u ".")
| MaFrac : forall f, digits f -> mantissa (u "." ++ f)
| MaBoth : forall d f, digits d -> digits f -> mantissa (d ++ u "." ++ f).
Inductive exponent : ustr -> Prop :=
| ExNone : exponent []
| ExSome : forall e g d, e = 101 \/ e = 69 -> sign g -> digits d -> exponent (e :: g ++ d).
(** in capitals or small letters *)
Definition special (s : ustr) : Prop := exists w, In w [u "inf"; u "infinity"; u "nan"] /\ Forall2 (fun c l => c = l \/ c + 32 = l) s w.
(** [s] is a floating point number *)
Definition float_text (s : ustr) : Prop := exists a g t b, s = a ++ g ++ t ++ b /\ blanks a /\ blanks b /\ sign g /\
  (special t \/ exists m e, t = m ++ e /\ mantissa m /\ exponent e).

(** ** durations: (-)PnYnMnDTnHnMnS *)
(** a number of seconds may have a fraction *)
Definition whole (s : ustr) (z : dsec) : Prop := exists i, int_text s i /\ z = DInt i.
Definition seconds (s : ustr) (z : dsec) : Prop := whole s z \/ (forall i, ~ int_text s i) /\ float_text s /\ z = DFlt s.
(** From the text [r] the number for [letter] is taken, which leaves [r']; if the letter is nowhere in [r] it is zero. *)
Inductive takes (letter : N) (Q : ustr -> dsec -> Prop) : ustr -> dsec -> ustr -> Prop :=
| TkThere : forall n z r, ~ In letter n -> Q n z -> takes letter Q (n ++ letter :: r) z r
| TkMissing : forall r, r <> [] -> ~ In letter r -> takes letter Q r (DInt 0) r.
Definition unsigned (r : ustr) : Prop := forall t, r <> 45 :: t.
(** the text [r] without sign and P is the duration [d]: each number in turn, until the text ends; whatever is behind the
    seconds does not matter *)
Inductive reads_time : ustr -> Z -> Z -> dsec -> Prop :=
| RtHour : forall r h, unsigned r -> takes 72 whole r (DInt h) [] -> reads_time r h 0 (DInt 0)
| RtMin : forall r r1 h m, unsigned r -> takes 72 whole r (DInt h) r1 -> unsigned r1 -> takes 77 whole r1 (DInt m) [] -> reads_time r h m (DInt 0)
| RtSec : forall r r1 r2 h m s rest, unsigned r -> takes 72 whole r (DInt h) r1 -> unsigned r1 -> takes 77 whole r1 (DInt m) r2 ->
    unsigned r2 -> takes 83 seconds r2 s rest -> reads_time r h m s.
Inductive reads_date : ustr -> duration -> Prop :=
| RdYear : forall r y, unsigned r -> takes 89 whole r (DInt y) [] -> reads_date r (mkDur y 0 0 0 0 (DInt 0))
| RdMon : forall r r1 y m, unsigned r -> takes 89 whole r (DInt y) r1 -> unsigned r1 -> takes 77 whole r1 (DInt m) [] -> reads_date r (mkDur y m 0 0 0 (DInt 0))
| RdDay : forall r r1 r2 y m d, unsigned r -> takes 89 whole r (DInt y) r1 -> unsigned r1 -> takes 77 whole r1 (DInt m) r2 ->
    unsigned r2 -> takes 68 whole r2 (DInt d) [] -> reads_date r (mkDur y m d 0 0 (DInt 0))
| RdTime : forall r r1 r2 t y m d h mi s, unsigned r -> takes 89 whole r (DInt y) r1 -> unsigned r1 -> takes 77 whole r1 (DInt m) r2 ->
    unsigned r2 -> takes 68 whole r2 (DInt d) (84 :: t) -> reads_time t h mi s -> reads_date r (mkDur y m d h mi s).
Definition reads_duration (text : ustr) (pos : bool) (d : duration) : Prop :=
  exists r, text = (if pos then [] else u "-") ++ u "P" ++ r /\ reads_date r d.
