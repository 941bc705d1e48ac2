(** C168, C169: JSON laid out over several lines. *)
From Coq Require Import List NArith ZArith Bool String Lia.
From Verif Require Import Base.Ustr Model.Cls Model.Value Model.Json Model.Pspec Model.Tables Model.Message Model.Sql Model.Layout
  Spec.JsonSpec Spec.LayoutSpec Spec.StorageSpec Proofs.LayoutLemmas Proofs.LayoutMore.
Import ListNotations.
Open Scope list_scope.
Open Scope N_scope.

(** C168: whatever the indentation asked for, to_json() raises what it raises without, and its text is read as the same
    content: every message of every class, surrogates included. *)
Theorem C168_text : forall C d i, texts_of_python (VDict d) ->
  match to_json C d with
  | Ok t => exists t' w, to_json_at C d 0 i = Ok (VStr t') /\ json_loads t' = Ok w /\ json_loads t = Ok w
  | Err e => to_json_at C d 0 i = Err e
  end.
Proof. exact message_layout. Qed.
Print Assumptions C168_text.

Theorem C168_read : forall C d i t, texts_of_python (VDict d) -> to_json C d = Ok t ->
  exists t', to_json_at C d 0 i = Ok (VStr t') /\ forall C' d0, from_json C' d0 t' = from_json C' d0 t.
Proof. exact message_layout_read. Qed.
Print Assumptions C168_read.

(** below the top level it gives the dictionary whose text that is *)
Theorem C168_level : forall C d n i,
  match to_json_at C d (S n) i with
  | Ok v => (exists r, v = VDict r) /\ json_dumps v = to_json C d
  | Err e => to_json C d = Err e
  end.
Proof. exact lower_level. Qed.
Print Assumptions C168_level.

(** of JSON values the laid out text is a codec *)
Theorem C168_codec : forall i v, json_value v -> exists t, json_dumps_indent i v = Ok t /\ json_loads t = Ok v.
Proof. exact layout_codec. Qed.
Print Assumptions C168_codec.

(** a token response, and a value with everything, byte for byte as Python writes it *)
Example C168_case : let d := [(u "access_token", VStr (55296 :: u "x")); (u "token_type", VStr (u "bearer")); (u "scope", VList [VStr (u "a"); VStr (u "b")])] in
  texts_of_python (VDict d) /\
  (exists t, to_json (cdef C_oauth2_AccessTokenResponse) d = Ok t) /\
  to_json_at (cdef C_oauth2_AccessTokenResponse) d 0 (Some 2%Z) = Ok (VStr
    (u "{" ++ [10] ++ u "  ""access_token"": ""\ud800x""," ++ [10] ++ u "  ""token_type"": ""bearer""," ++ [10] ++
     u "  ""scope"": ""a b""" ++ [10] ++ u "}")) /\
  json_dumps_indent (Some 1%Z) (VDict [(u "a", VList [VInt 1; VList []; VDict []]); (u "b", VDict [(u "c", VStr [10])])]) = Ok
    (u "{" ++ [10] ++ u " ""a"": [" ++ [10] ++ u "  1," ++ [10] ++ u "  []," ++ [10] ++ u "  {}" ++ [10] ++ u " ]," ++ [10] ++
     u " ""b"": {" ++ [10] ++ u "  ""c"": ""\n""" ++ [10] ++ u " }" ++ [10] ++ u "}") /\
  json_dumps_indent (Some (-3)%Z) (VDict [(u "a", VNone)]) = Ok (u "{" ++ [10] ++ u """a"": null" ++ [10] ++ u "}") /\
  to_json_at (cdef C_oauth2_AccessTokenResponse) d 1 None = Ok (VDict (dset d (u "scope") (VStr (u "a b")))).
Proof.
  split.
  - constructor. intros k x [E|[E|[E|[]]]]; injection E as <- <-; (split; [apply cp_lit; reflexivity|]).
    + constructor. apply cp_lit. reflexivity.
    + constructor. apply cp_lit. reflexivity.
    + constructor. intros y [<-|[<-|[]]]; constructor; apply cp_lit; reflexivity.
  - split; [eexists; vm_compute; reflexivity|]. vm_compute. repeat split; reflexivity.
Qed.

(** C169: after any history of a session the text of the SQL storage is JSON: a list of rows, and exactly the keys that are
    there have one, with their last value. *)
Theorem C169_rows : forall h, (forall o, In o h -> op_texts o) ->
  exists t rows, sql_str (qrun sql_empty h) = Ok t /\ json_loads t = Ok (VList rows) /\
    (forall r, In r rows -> exists i k v, r = VList [VInt i; VStr k; VStr v; VNone]) /\
    forall k v, qlatest k h = Some v <-> exists i, In (VList [VInt i; VStr k; VStr v; VNone]) rows.
Proof. exact sql_text. Qed.
Print Assumptions C169_rows.

Example C169_case : let h := [QSet (u "a") (u "1"); QSet (u "b") (u "2"); QUpdate (u "a") (u "3"); QDelete (u "b"); QSet (u "c") [233]] in
  (forall o, In o h -> op_texts o) /\ (qlatest (u "a") h, qlatest (u "b") h) = (Some (u "3"), None) /\
  sql_str (qrun sql_empty h) = Ok (
    u "[" ++ [10] ++ u "  [" ++ [10] ++ u "    1," ++ [10] ++ u "    ""a""," ++ [10] ++ u "    ""3""," ++ [10] ++ u "    null" ++ [10] ++
    u "  ]," ++ [10] ++ u "  [" ++ [10] ++ u "    3," ++ [10] ++ u "    ""c""," ++ [10] ++ u "    ""\u00e9""," ++ [10] ++ u "    null" ++ [10] ++
    u "  ]" ++ [10] ++ u "]").
Proof.
  split; [|vm_compute; split; reflexivity]. intros o [<-|[<-|[<-|[<-|[<-|[]]]]]]; try exact I; split; reflexivity.
Qed.
