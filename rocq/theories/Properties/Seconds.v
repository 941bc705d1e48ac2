(** C175: seconds with a fraction in durations. *)
From Coq Require Import List NArith ZArith QArith Qround Bool String.
From Verif Require Import Base.Ustr Model.Value Model.TimeUtil Spec.NumeralSpec Spec.FloatSpec Spec.TimeSpec Spec.SecondsSpec
  Proofs.CalendarLemmas Proofs.SecondsLemmas Proofs.SecondsYear.
Import ListNotations.
Open Scope list_scope.
Open Scope Z_scope.

(** C175: the value of a number is the nearest floating point number ... *)
Theorem C175_value : forall s neg n k q, decimal_text s neg n k ->
  (float_value s = Some q <-> rounds (inject_Z (Z.of_N n) * 10 ^ k) (if neg then - q else q))%Q.
Proof. exact float_value_iff. Qed.
Print Assumptions C175_value.

(** ... and all texts that float() accepts are such numbers, or infinity or not a number, which have none. *)
Theorem C175_texts : forall s, float_text s ->
  (exists neg n k, decimal_text s neg n k) \/ (exists a g t b, s = a ++ g ++ t ++ b /\ blanks a /\ blanks b /\ sign g /\ special t).
Proof. exact c175_texts. Qed.
Print Assumptions C175_texts.
Theorem C175_special : forall a g t b, blanks a -> blanks b -> sign g -> special t -> float_value (a ++ g ++ t ++ b) = None.
Proof. exact special_value. Qed.
Print Assumptions C175_special.

(** Seconds with a fraction are read by parse_duration, but never added: add_duration raises. *)
Theorem C175_raises : forall t text dur s, 1 <= tm_mday t -> 0 <= tm_hour t -> 0 <= tm_min t -> 0 <= tm_sec t ->
  parse_duration text = Ok (true, dur) -> 0 <= d_hour dur -> 0 <= d_min dur -> d_sec dur = DFlt s -> unsigned_float s ->
  exists k e, In e [ETypeError; EValueError; EOverflowError] /\ forall n, (k <= n)%nat -> add_duration n t text = Err e.
Proof. exact c175_raises. Qed.
Print Assumptions C175_raises.

Example C175_case : let t := mkTm 1970 1 1 0 0 30 3 1 0 in
  parse_duration (u "P0DT0H0M6.75S") = Err ETimeUtilError /\
  parse_duration (u "P0Y0M0DT0H0M6.75S") = Ok (true, mkDur 0 0 0 0 0 (DFlt (u "6.75"))) /\ unsigned_float (u "6.75") /\
  decimal_text (u "6.75") false 675 (-2) /\ float_value (u "6.75") = Some (27 # 4) /\ float_value (u " -1_0.5e-1 ") = Some (- (4728779608739021 # 4503599627370496))%Q /\
  add_duration 5 t (u "P0Y0M0DT0H0M6.75S") = Err ETypeError /\ add_duration 5 t (u "P0Y0M0DT0H0M1e400S") = Err EValueError /\
  add_duration 5 t (u "P3000000000Y0M0DT0H0M.5S") = Err EOverflowError.
Proof.
  intro t. assert (A : numeral (u "6") 6) by (change (numeral [54%N] (54 - 48)); constructor; split; discriminate).
  assert (B : numeral (u "75") 75) by (change (numeral ([55%N] ++ [53%N]) ((55 - 48) * 10 + (53 - 48))); repeat constructor; discriminate).
  repeat match goal with |- _ /\ _ => split end; try (vm_compute; reflexivity).
  - exists [], [], (u "6.75"), []. repeat split; [intros c []|intros c []|left; reflexivity|]. right. exists (u "6.75"), []. split; [reflexivity|]. split; [|constructor].
    apply (MaBoth (u "6") (u "75")); eexists; eassumption.
  - exists [], [], (u "6.75"), [], [], 2%nat, 0. repeat split; [intros c []|intros c []|left; reflexivity| |constructor].
    exact (MiBoth (u "6") (u "75") 6 75 A B).
Qed.

(** C175: ValueError for seconds that are infinite or not a number, ... *)
Theorem C175_infinite : forall n t text dur s, parse_duration text = Ok (true, dur) -> d_sec dur = DFlt s -> float_value s = None ->
  add_duration n t text = Err EValueError.
Proof. exact c175_infinite. Qed.
Print Assumptions C175_infinite.

(** ... and for other seconds TypeError if the year that is reached is an int of C, and OverflowError if not.  The year is that of the
    day so many days after the first of the month; hours are counted as the code does, sixty to a day. *)
Theorem C175_year : forall t text dur s x y, 1 <= tm_mday t -> 0 <= tm_hour t -> 0 <= tm_min t -> 0 <= tm_sec t ->
  parse_duration text = Ok (true, dur) -> 0 <= d_hour dur -> 0 <= d_min dur -> d_sec dur = DFlt s ->
  float_value s = Some x -> (0 <= x)%Q -> rounds (inject_Z (tm_sec t) + x) y -> (y < inject_Z (2 ^ 53))%Q ->
  let months := tm_mon t + d_mon dur - 1 in
  let year := tm_year t + d_year dur + months / 12 in
  let month := months mod 12 + 1 in
  let minutes := tm_min t + d_min dur + Qfloor (y / inject_Z 60) in
  let carry := (tm_hour t + d_hour dur + minutes / 60) / 60 in
  exists k l y' m' d' l', month_length year month l /\ month_length y' m' l' /\ 1 <= d' <= l' /\
    epoch_days y' m' d' = epoch_days year month 1 + Z.max 1 (Z.min l (d_mday dur)) + tm_mday t + carry - 1 /\
    forall n, (k <= n)%nat -> add_duration n t text = Err (if (-2147483648 <=? y') && (y' <=? 2147483647) then ETypeError else EOverflowError).
Proof. exact c175_year. Qed.
Print Assumptions C175_year.

Example C175_year_case : let t := mkTm 1970 1 1 0 0 30 3 1 0 in
  float_value (u "6.75") = Some (27 # 4) /\ rounds (inject_Z 30 + (27 # 4)) (147 # 4) /\ rounds (inject_Z 30 + inject_Z 1000000000) (inject_Z 1000000030) /\
  parse_duration (u "P2147481677Y0M0DT0H0M1e9S") = Ok (true, mkDur 2147481677 0 0 0 0 (DFlt (u "1e9"))) /\ float_value (u "1e9") = Some (inject_Z 1000000000) /\
  add_duration 5 t (u "P2147481677Y0M0DT0H0M6.75S") = Err ETypeError /\ add_duration 400 t (u "P2147481677Y0M0DT0H0M1e9S") = Err EOverflowError /\
  add_duration 5 t (u "P0Y0M0DT0H0MinfS") = Err EValueError.
Proof. intro t. split; [vm_compute; reflexivity|]. split; [apply sample_sums|]. split; [apply sample_sums|]. vm_compute. repeat split; reflexivity. Qed.
