(** C171: what was read from JSON is written as JSON that is read as the same. *)
From Coq Require Import List NArith ZArith QArith_base Qabs Qpower Qreduction Bool String.
From Verif Require Import Base.Ustr Model.Cls Model.Value Model.Json Model.Layout Spec.JsonSpec Spec.FloatSpec Spec.GrammarSpec Proofs.RewriteLemmas Proofs.ShortLemmas.
Import ListNotations.
Open Scope list_scope.
Open Scope N_scope.

(** any JSON text of Unicode characters, with any escapes (also of lone surrogates) and any layout *)
Theorem C171_again : forall t v i, scalars t = true -> json_loads t = Ok v ->
  exists t', json_dumps_indent i v = Ok t' /\ json_loads t' = Ok v.
Proof. exact written_again. Qed.
Print Assumptions C171_again.

(** every floating-point number can be written and is read back *)
Theorem C171_number : forall q, binary64 (Qabs q) -> exists t, json_dumps (VFlt q) = Ok t /\ json_loads t = Ok (VFlt (Qred q)).
Proof. exact number_written. Qed.
Print Assumptions C171_number.

(** with as few digits as possible: if some decimal number with [p] digits is read as that number, [p] digits are enough for the one
    that is written *)
Theorem C171_short : forall q t, binary64 (Qabs q) -> json_dumps (VFlt q) = Ok t -> exists t' n k, (t = t' \/ t = 45 :: t') /\ scientific t' n k /\
  forall p n' k', (0 <= n' < 10 ^ p)%Z -> read_as n' k' (Qred (Qabs q)) ->
    exists m j, (0 <= m < 10 ^ p)%Z /\ (inject_Z n * 10 ^ k == inject_Z m * 10 ^ j)%Q.
Proof. exact number_short. Qed.
Print Assumptions C171_short.

(** escapes of lone surrogates and of a pair, a number with more digits than it needs, a repeated member *)
Example C171_case : let t := u "{""a"": 1, ""b"": [0.1000000000000000055, 1E22, -0.5e1], ""a"": ""\udc00\ud800x\ud83d\uDE00\/""}" in
  scalars t = true /\
  bind (json_loads t) json_dumps = Ok (u "{""a"": ""\udc00\ud800x\ud83d\ude00/"", ""b"": [0.1, 1e+22, -5.0]}").
Proof. vm_compute. split; reflexivity. Qed.

(** the texts have to be of Unicode characters: two surrogates next to each other in the text itself are read as they are, but written
    as escapes of one character *)
Example C171_surrogates : let t := [34; 55357; 56832; 34] in
  scalars t = false /\ json_loads t = Ok (VStr [55357; 56832]) /\ json_dumps (VStr [55357; 56832]) = Ok (u """\ud83d\ude00""") /\
  json_loads (u """\ud83d\ude00""") = Ok (VStr [128512]).
Proof. vm_compute. repeat split; reflexivity. Qed.

(** numbers at the ends of the range *)
Example C171_case_number : let q := (1 # Pos.pow 2 1074)%Q in binary64 (Qabs q) /\ json_dumps (VFlt q) = Ok (u "5e-324").
Proof. cbv zeta. split; [|vm_compute; reflexivity]. exists 1%Z, (-1074)%Z. split; [split; [discriminate|reflexivity]|]. split; [split; discriminate|]. vm_compute. reflexivity. Qed.
