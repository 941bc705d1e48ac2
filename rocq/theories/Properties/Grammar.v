(** C151: JSON texts are read exactly by the grammar of RFC 8259. *)
From Coq Require Import List NArith ZArith QArith_base Qabs Qpower Qreduction Bool String.
From Verif Require Import Base.Ustr Model.Value Model.Json Model.Cls Model.Message Spec.FloatSpec Spec.GrammarSpec Proofs.GrammarLemmas.
Import ListNotations.
Open Scope list_scope.
Open Scope N_scope.

(** json_deserializer, JSON.deserialize and what from_json reads: a text is accepted exactly if the grammar
    gives it a meaning, and with that meaning *)
Theorem C151_json : forall t v, json_loads t = Ok v <-> json_text t v.
Proof. exact json_iff. Qed.
Print Assumptions C151_json.

(** the grammar is unambiguous *)
Theorem C151_unambiguous : forall t v w, json_text t v -> json_text t w -> v = w.
Proof. exact one_meaning. Qed.
Print Assumptions C151_unambiguous.

(** from_json refuses a text that is no JSON text, and leaves the message as it was *)
Theorem C151_refused : forall c d t, (forall v, ~ json_text t v) -> fst (from_json c d t) = d /\ exists e, snd (from_json c d t) = Err e.
Proof. exact not_json. Qed.
Print Assumptions C151_refused.

(** how a text is written (white space, escapes, repeated members) does not matter for the message read from it *)
Theorem C151_writing : forall c d t t' v, json_text t v -> json_text t' v -> from_json c d t = from_json c d t'.
Proof. exact same_meaning. Qed.
Print Assumptions C151_writing.

(** what a number with fraction or exponent is read as is a binary64 number, and no other is nearer *)
Theorem C151_nearest : forall n k q, (0 <= n)%Z -> read_as n k q ->
  binary64 q /\ forall q', binary64 q' -> (Qabs (inject_Z n * 10 ^ k - q) <= Qabs (inject_Z n * 10 ^ k - q'))%Q.
Proof. exact number_nearest. Qed.
Print Assumptions C151_nearest.

(** such a number is read exactly if it is not infinite for binary64 *)
Theorem C151_limit : forall t n k, scientific t n k -> ((exists v, json_loads t = Ok v) <-> (inject_Z n * 10 ^ k < 2 ^ 1024 - 2 ^ 970)%Q).
Proof. exact number_limit. Qed.
Print Assumptions C151_limit.

(** and without any change if it is a binary64 number itself *)
Theorem C151_exact : forall t n k, scientific t n k -> binary64 (inject_Z n * 10 ^ k) -> json_loads t = Ok (VFlt (Qred (inject_Z n * 10 ^ k))).
Proof. exact number_exact. Qed.
Print Assumptions C151_exact.

Example C151_fractions :
  json_loads (u "[1.5, -2.50E+1, 0.1, 1e23, 25e-2, 0e5]") = Ok (VList [VFlt (3 # 2); VFlt (-25 # 1); VFlt (3602879701896397 # 36028797018963968);
    VFlt (99999999999999991611392 # 1); VFlt (1 # 4); VFlt 0]) /\
  json_loads (u "9007199254740993.0") = Ok (VFlt 9007199254740992) /\ json_loads (u "9007199254740995.0") = Ok (VFlt 9007199254740996) /\
  json_loads (u "1.") = Err EJSONDecodeError /\ json_loads (u "1e") = Err EJSONDecodeError /\ json_loads (u "1e+") = Err EJSONDecodeError /\
  json_loads (u ".5") = Err EJSONDecodeError /\ json_loads (u "1.e3") = Err EJSONDecodeError /\ json_loads (u "01.5") = Err EJSONDecodeError /\
  json_loads (u "1e309") = Err OutOfModel.
Proof. vm_compute. repeat split. Qed.
(** "1.5" is 15 times ten to the power -1, a binary64 number *)
Example C151_fraction_written : scientific (u "1.5") 15 (-1) /\ binary64 (inject_Z 15 * 10 ^ (-1)).
Proof.
  split; [|exists 3%Z, (-1)%Z; repeat split; discriminate]. exists [49], 1, [46; 53], [53], [], 0%Z. split; [reflexivity|].
  split; [right; exists 49, []; split; [reflexivity|]; split; [split; discriminate|]; split; [intros x []|reflexivity]|].
  split; [apply fraction_some; split; [discriminate|intros x [<-|[]]; split; discriminate]|]. split; [apply exponent_none|]. split; [discriminate|]. split; reflexivity.
Qed.

(** quotes are written as 34, to keep the texts legible *)
Example C151_accepted :
  json_loads (u " [ 1 ,-20,null , true,[ ] ,{ } ] ") = Ok (VList [VInt 1; VInt (-20); VNone; VBool true; VList []; VDict []]) /\
  json_loads ([123; 34] ++ u "a" ++ [34] ++ u ": 1, " ++ [34] ++ u "b" ++ [34] ++ u ": 2, " ++ [34] ++ u "a" ++ [34] ++ u ": 3" ++ [10; 125]) = Ok (VDict [(u "a", VInt 3); (u "b", VInt 2)]) /\
  json_loads ([34] ++ u "\u00e9\n\/\ud83d\ude00" ++ [34]) = Ok (VStr [233; 10; 47; 128512]) /\
  json_loads ([34] ++ u "\ud83dx\ude00" ++ [34]) = Ok (VStr [55357; 120; 56832]) /\
  json_loads (u "-0") = Ok (VInt 0).
Proof. vm_compute. repeat split. Qed.
Example C151_not_accepted :
  json_loads (u "[1,]") = Err EJSONDecodeError /\ json_loads (u "01") = Err EJSONDecodeError /\ json_loads (u "+1") = Err EJSONDecodeError /\
  json_loads [34; 10; 34] = Err EJSONDecodeError /\ json_loads (65279 :: u "1") = Err EJSONDecodeError /\ json_loads (u "1 2") = Err EJSONDecodeError /\
  json_loads ([34] ++ u "\x41" ++ [34]) = Err EJSONDecodeError /\ json_loads ([34] ++ u "\u12g4" ++ [34]) = Err EJSONDecodeError /\
  json_loads (160 :: u "1") = Err EJSONDecodeError /\ json_loads (u "{1:2}") = Err EJSONDecodeError /\ json_loads (u "True") = Err EJSONDecodeError /\
  json_loads [] = Err EJSONDecodeError.
Proof. vm_compute. repeat split. Qed.
(** the grammar itself at work: two ways to write the same document *)
Example C151_written : json_text (u "[ 7 ]") (VList [VInt 7]) /\ json_text (u "[7]") (VList [VInt 7]) /\ ~ json_text (u "[07]") (VList [VInt 7]).
Proof.
  assert (N7 : natural [55] 7) by (right; exists 55, []; split; [reflexivity|]; split; [split; discriminate|]; split; [intros x []|reflexivity]).
  assert (B1 : blank [32]) by (intros c [<-|[]]; auto). assert (B0 : blank []) by (intros c []).
  split; [|split].
  - exists [], (u "[ 7 ]"), []. split; [exact B0|]. split; [exact B0|]. split; [|reflexivity]. apply (reads_list [32] ([55] ++ [32] ++ [93])); [exact B1|]. apply elements_last; [exact (reads_nat _ _ N7)|exact B1].
  - exists [], (u "[7]"), []. split; [exact B0|]. split; [exact B0|]. split; [|reflexivity]. apply (reads_list [] ([55] ++ [] ++ [93])); [exact B0|]. apply elements_last; [exact (reads_nat _ _ N7)|exact B0].
  - intro H. apply json_iff in H. vm_compute in H. discriminate.
Qed.
