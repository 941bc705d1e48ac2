(** C19, C20, C21: the text codecs. *)
From Coq Require Import List NArith ZArith QArith_base Bool String.
From Verif Require Import Base.Ustr Model.Value Model.Pspec Model.Json Model.Message Model.Converter
  Spec.JsonSpec Spec.CodecSpec Proofs.JsonLemmas Proofs.Deciders Proofs.CodecLemmas.
Import ListNotations.
Open Scope list_scope.
Open Scope N_scope.

(** C19: every JSON value is written as printable ASCII, which reads back as that value. *)
Theorem C19_json_codec : forall v, json_value v ->
  exists t, json_dumps v = Ok t /\ Forall printable t /\ json_loads t = Ok v.
Proof. exact json_codec. Qed.
Print Assumptions C19_json_codec.

Example C19_case :
  let v := VDict [(u "k", VList [VInt (-12); VNone; VStr [34; 10; 233; 128512]]); ([], VBool false)] in
  json_value v /\
  json_dumps v = Ok (u "{" ++ [34] ++ u "k" ++ [34] ++ u ": [-12, null, " ++ [34; 92; 34; 92] ++ u "n\u00e9\ud83d\ude00"
    ++ [34] ++ u "], " ++ [34; 34] ++ u ": false}").
Proof.
  cbv zeta. split; [apply jsonb_ok|]; vm_compute; reflexivity.
Qed.
(** floating-point numbers are written as Python writes them *)
Example C19_case_float :
  let v := VList [VFlt (3 # 2); VFlt (3602879701896397 # 36028797018963968); VFlt (-25 # 1); VFlt (1700000000 # 1); VFlt (99999999999999991611392 # 1); VFlt (0 # 1)] in
  json_value v /\ json_dumps v = Ok (u "[1.5, 0.1, -25.0, 1700000000.0, 1e+23, 0.0]").
Proof.
  cbv zeta. split; [|vm_compute; reflexivity]. constructor. intros x [<-|[<-|[<-|[<-|[<-|[<-|[]]]]]]]; (constructor; [|reflexivity]).
  - exists 3%Z, (-1)%Z. repeat split; discriminate.
  - exists 3602879701896397%Z, (-55)%Z. repeat split; discriminate.
  - exists 25%Z, 0%Z. repeat split; discriminate.
  - exists 1700000000%Z, 0%Z. repeat split; discriminate.
  - exists 5960464477539062%Z, 24%Z. repeat split; discriminate.
  - exists 0%Z, 0%Z. repeat split; discriminate.
Qed.

(** C20: storage keys survive serialization, use file name characters only and never collide. *)
Theorem C20_qpkey_codec : forall k, encodable k ->
  exists q, qpkey_serialize k = Ok q /\ qpkey_deserialize q = k /\ Forall filename_char q /\
    forall k', qpkey_serialize k' = Ok q -> k' = k.
Proof. exact qpkey_codec. Qed.
Print Assumptions C20_qpkey_codec.

Example C20_case : let k := u "https://x.y/ a+b" ++ [233] in
  encodable k /\ qpkey_serialize k = Ok (u "https%3A%2F%2Fx.y%2F+a%2Bb%C3%A9").
Proof. cbv zeta. split; [apply encodable_iff|]; vm_compute; reflexivity. Qed.

(** C21: joining and splitting string lists is the identity exactly on blank-free lists. *)
Theorem C21_list_serializers : forall l : list ustr, l <> [] ->
  exists t,
    ser_url_list SerList (VList (map VStr l)) = Ok t /\
    ser_url_list SerSpSep (VList (map VStr l)) = Ok t /\
    ser_dict to_dict_v SerSpSep (VList (map VStr l)) = Ok (VStr t) /\
    forall fmt r, l_deser the_lib DeSpSep (VStr t) fmt = Ok r \/ l_deser the_lib DeList (VStr t) Furl = Ok r ->
      (r = VList (map VStr l) <-> blank_free l).
Proof. exact c21. Qed.
Print Assumptions C21_list_serializers.

Theorem C21_list_deserializers_total : forall t fmt, exists r1 r2,
  l_deser the_lib DeSpSep (VStr t) fmt = Ok (VList r1) /\ l_deser the_lib DeList (VStr t) Furl = Ok (VList r2).
Proof. exact c21_total. Qed.
Print Assumptions C21_list_deserializers_total.

Example C21_case : let l := [u "openid"; u "profile"] in
  l <> [] /\ blank_free l /\ ~ blank_free [u "open id"] /\
  l_deser the_lib DeSpSep (VStr (u "openid profile")) Furl = Ok (VList (map VStr l)).
Proof.
  cbv zeta. repeat split; try discriminate.
  - apply blank_free_iff. reflexivity.
  - intro H. apply blank_free_iff in H. vm_compute in H. discriminate.
Qed.
