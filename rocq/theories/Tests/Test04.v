(** Generated by tools/mktests.py: the tests of /repo/tests/test_04_message.py on the model. *)
From Coq Require Import List NArith ZArith QArith Bool String.
From Verif Require Import Base.Ustr Base.Percent Model.Cls Model.Value Model.Pspec Model.Tables Model.Json Model.Message Model.Env Model.Verify
  Model.Jose Model.Dispatch Model.Serializers Model.RequestObject Model.IdentityAssurance Model.Calendar Model.TimeUtil Model.Config Tests.TestKit.
Import ListNotations.
Open Scope list_scope.
Open Scope N_scope.

(** test_04_message.py:107-115 *)
Definition dummy : clsdef := {| cd_name := u "DummyMessage";
  cd_param := [(u "req_str", sp01); (u "opt_str", sp00); (u "opt_int", sp04); (u "opt_str_list", sp05); (u "req_str_list", sp06); (u "opt_json", sp09)];
  cd_default := []; cd_allowed := [] |}.
(** MsgMessage of 296-300 and 322-326; OPTIONAL_LIST_OF_MESSAGES is message.py:990-991 *)
Definition with_msg : clsdef := {| cd_name := u "MsgMessage"; cd_param := [(u "msg", sp14); (u "opt_str", sp00)]; cd_default := []; cd_allowed := [] |}.
Definition with_msgs : clsdef := {| cd_name := u "MsgMessage";
  cd_param := [(u "msgs", mkP (TList (TMsg C_Message)) false (Some SerMsgList) (Some DeMsgList) false); (u "opt_str", sp00)]; cd_default := []; cd_allowed := [] |}.

(** test_04_message.py:88-95 *)
Example test_sp_sep_list_deserializer :
  all [
  value_is (l_deser the_lib DeSpSep (VStr (u "foo bar zen")) Furl) (VList [(VStr (u "foo")); (VStr (u "bar")); (VStr (u "zen"))]);
  value_is (l_deser the_lib DeSpSep (VList [(VStr (u "foo bar zen"))]) Furl) (VList [(VStr (u "foo")); (VStr (u "bar")); (VStr (u "zen"))])] = true.
Proof. vm_compute. reflexivity. Qed.

(** test_04_message.py:98-101 *)
Example test_json_serializer :
  all [
  value_is (do x <- json_dumps (VDict [((u "foo"), (VList [(VStr (u "bar")); (VStr (u "stool"))]))]) ; json_loads x) (VDict [((u "foo"), (VList [(VStr (u "bar")); (VStr (u "stool"))]))])] = true.
Proof. vm_compute. reflexivity. Qed.

(** test_04_message.py:104-109 *)
Example test_json_deserializer :
  all [
  value_is (do x <- json_dumps (VDict [((u "foo"), (VList [(VStr (u "bar")); (VStr (u "stool"))]))]) ; l_deser the_lib DeJson (VStr x) Furl) (VDict [((u "foo"), (VList [(VStr (u "bar")); (VStr (u "stool"))]))])] = true.
Proof. vm_compute. reflexivity. Qed.

(** test_04_message.py:124-134 *)
Example TestMessage_test_json_serialization :
  all [
  keys_are (do x <- (do m <- (construct dummy [((u "req_str"), (VStr (u "Fair"))); ((u "opt_str"), (VStr (u "game"))); ((u "opt_int"), (VInt (9))); ((u "opt_str_list"), (VList [(VStr (u "one")); (VStr (u "two"))])); ((u "req_str_list"), (VList [(VStr (u "spike")); (VStr (u "lee"))])); ((u "opt_json"), (VStr (u "{""ford"": ""green""}")))]) ; to_json dummy m) ; read_json dummy x) [(u "req_str"); (u "opt_str"); (u "opt_int"); (u "opt_str_list"); (u "req_str_list"); (u "opt_json")]] = true.
Proof. vm_compute. reflexivity. Qed.

(** test_04_message.py:136-143 *)
Example TestMessage_test_from_dict :
  all [
  keys_are (read_dict dummy (VDict [((u "req_str"), (VStr (u "Fair"))); ((u "req_str_list"), (VList [(VStr (u "spike")); (VStr (u "lee"))])); ((u "opt_int"), (VInt (9)))])) [(u "req_str"); (u "req_str_list"); (u "opt_int")]] = true.
Proof. vm_compute. reflexivity. Qed.

(** test_04_message.py:145-152 *)
Example TestMessage_test_from_dict_lang_tag_unknown_key :
  all [
  keys_are (read_dict dummy (VDict [((u "req_str"), (VStr (u "Fair"))); ((u "req_str_list"), (VList [(VStr (u "spike")); (VStr (u "lee"))])); ((u "opt_int"), (VInt (9))); ((u "attribute#se"), (VStr (u "value")))])) [(u "req_str"); (u "req_str_list"); (u "opt_int"); (u "attribute#se")]] = true.
Proof. vm_compute. reflexivity. Qed.

(** test_04_message.py:154-161 *)
Example TestMessage_test_from_dict_lang_tag :
  all [
  keys_are (read_dict dummy (VDict [((u "req_str#se"), (VStr (u "Fair"))); ((u "req_str_list"), (VList [(VStr (u "spike")); (VStr (u "lee"))])); ((u "opt_int"), (VInt (9)))])) [(u "req_str#se"); (u "req_str_list"); (u "opt_int")]] = true.
Proof. vm_compute. reflexivity. Qed.

(** test_04_message.py:163-169 *)
Example TestMessage_test_from_json :
  all [
  keys_are (read_json dummy (u "{""req_str"": ""Fair"", ""req_str_list"": [""spike"", ""lee""], ""opt_int"": 9}")) [(u "req_str"); (u "req_str_list"); (u "opt_int")];
  item_is (read_json dummy (u "{""req_str"": ""Fair"", ""req_str_list"": [""spike"", ""lee""], ""opt_int"": 9}")) (u "opt_int") (VInt (9))] = true.
Proof. vm_compute. reflexivity. Qed.

(** test_04_message.py:171-175 *)
Example TestMessage_test_single_optional :
  all [
  raises EValueError (read_json dummy (u "{""req_str"": ""Fair"", ""req_str_list"": [""spike"", ""lee""], ""opt_int"": [9, 10]}"))] = true.
Proof. vm_compute. reflexivity. Qed.

(** test_04_message.py:177-185 *)
Example TestMessage_test_extra_param :
  all [
  keys_are (read_json dummy (u "{""req_str"": ""Fair"", ""req_str_list"": [""spike"", ""lee""], ""extra"": ""out""}")) [(u "req_str"); (u "req_str_list"); (u "extra")];
  item_is (read_json dummy (u "{""req_str"": ""Fair"", ""req_str_list"": [""spike"", ""lee""], ""extra"": ""out""}")) (u "extra") (VStr (u "out"))] = true.
Proof. vm_compute. reflexivity. Qed.

(** test_04_message.py:187-200 *)
Example TestMessage_test_to_from_jwt :
  all [
  keys_are (do m <- (construct dummy [((u "req_str"), (VStr (u "Fair"))); ((u "opt_str"), (VStr (u "game"))); ((u "opt_int"), (VInt (9))); ((u "opt_str_list"), (VList [(VStr (u "one")); (VStr (u "two"))])); ((u "req_str_list"), (VList [(VStr (u "spike")); (VStr (u "lee"))])); ((u "opt_json"), (VStr (u "{""ford"": ""green""}")))]) ; do x <- message_to_jwt signer dummy m [7] (u "HS256") ; do r <- from_jwt (kj_env 0 [[]]) 0 dummy x true true [] ; Ok (fst r)) [(u "req_str"); (u "opt_str"); (u "opt_int"); (u "opt_str_list"); (u "req_str_list"); (u "opt_json")]] = true.
Proof. vm_compute. reflexivity. Qed.

(** test_04_message.py:202-213 *)
Example TestMessage_test_to_from_jwe :
  all [
  keys_are (do m <- (construct dummy [((u "req_str"), (VStr (u "Fair"))); ((u "opt_str"), (VStr (u "game"))); ((u "opt_int"), (VInt (9))); ((u "opt_str_list"), (VList [(VStr (u "one")); (VStr (u "two"))])); ((u "req_str_list"), (VList [(VStr (u "spike")); (VStr (u "lee"))])); ((u "opt_json"), (VStr (u "{""ford"": ""green""}")))]) ; do x <- to_jwe signer dummy m [7] (u "A128CBC-HS256") (u "A128KW") ; do d <- construct dummy [] ; keep (from_jwe signer dummy d x [7])) [(u "req_str"); (u "opt_str"); (u "opt_int"); (u "opt_str_list"); (u "req_str_list"); (u "opt_json")]] = true.
Proof. vm_compute. reflexivity. Qed.

(** test_04_message.py:215-228 *)
Example TestMessage_test_to_jwe_from_jwt :
  all [
  keys_are (do m <- (construct dummy [((u "req_str"), (VStr (u "Fair"))); ((u "opt_str"), (VStr (u "game"))); ((u "opt_int"), (VInt (9))); ((u "opt_str_list"), (VList [(VStr (u "one")); (VStr (u "two"))])); ((u "req_str_list"), (VList [(VStr (u "spike")); (VStr (u "lee"))])); ((u "opt_json"), (VStr (u "{""ford"": ""green""}")))]) ; do x <- to_jwe signer dummy m [7] (u "A128CBC-HS256") (u "A128KW") ; do r <- from_jwt (kj_env 0 [[]]) 0 dummy x true true [] ; Ok (fst r)) [(u "req_str"); (u "opt_str"); (u "opt_int"); (u "opt_str_list"); (u "req_str_list"); (u "opt_json")]] = true.
Proof. vm_compute. reflexivity. Qed.

(** test_04_message.py:230-264 *)
Example TestMessage_test_verify :
  all [
  match (do m <- (construct dummy [((u "req_str"), (VStr (u "Fair"))); ((u "opt_str"), (VStr (u "game"))); ((u "opt_int"), (VInt (9))); ((u "opt_str_list"), (VList [(VStr (u "one")); (VStr (u "two"))])); ((u "req_str_list"), (VList [(VStr (u "spike")); (VStr (u "lee"))])); ((u "opt_json"), (VStr (u "{""ford"": ""green""}")))]) ; verify_base dummy m) with Ok b => b | _ => false end;
  keys_are (construct dummy [((u "req_str"), (VStr (u "Fair"))); ((u "opt_str"), (VStr (u "game"))); ((u "opt_int"), (VInt (9))); ((u "opt_str_list"), (VList [(VStr (u "one")); (VStr (u "two"))])); ((u "req_str_list"), (VList [(VStr (u "spike")); (VStr (u "lee"))])); ((u "opt_json"), (VStr (u "{""ford"": ""green""}")))]) [(u "req_str"); (u "opt_str"); (u "opt_int"); (u "opt_str_list"); (u "req_str_list"); (u "opt_json")];
  match (do m <- (construct dummy [((u "req_str"), (VStr (u "Fair"))); ((u "opt_str"), (VStr (u "game"))); ((u "opt_int"), (VInt (9))); ((u "opt_str_list"), (VList [(VStr (u "one")); (VStr (u "two"))])); ((u "req_str_list"), (VList [(VStr (u "spike")); (VStr (u "lee"))])); ((u "opt_json"), (VStr (u "{""ford"": ""green""}"))); ((u "extra"), (VStr (u "internal")))]) ; verify_base dummy m) with Ok b => b | _ => false end;
  keys_are (construct dummy [((u "req_str"), (VStr (u "Fair"))); ((u "opt_str"), (VStr (u "game"))); ((u "opt_int"), (VInt (9))); ((u "opt_str_list"), (VList [(VStr (u "one")); (VStr (u "two"))])); ((u "req_str_list"), (VList [(VStr (u "spike")); (VStr (u "lee"))])); ((u "opt_json"), (VStr (u "{""ford"": ""green""}"))); ((u "extra"), (VStr (u "internal")))]) [(u "req_str"); (u "opt_str"); (u "opt_int"); (u "opt_str_list"); (u "req_str_list"); (u "opt_json"); (u "extra")];
  match (do m <- (construct dummy [((u "req_str"), (VStr (u "Fair"))); ((u "opt_str"), (VStr (u "game"))); ((u "opt_int"), (VInt (9))); ((u "opt_str_list"), (VList [(VStr (u "one")); (VStr (u "two"))])); ((u "req_str_list"), (VList [(VStr (u "spike")); (VStr (u "lee"))]))]) ; verify_base dummy m) with Ok b => b | _ => false end;
  keys_are (construct dummy [((u "req_str"), (VStr (u "Fair"))); ((u "opt_str"), (VStr (u "game"))); ((u "opt_int"), (VInt (9))); ((u "opt_str_list"), (VList [(VStr (u "one")); (VStr (u "two"))])); ((u "req_str_list"), (VList [(VStr (u "spike")); (VStr (u "lee"))]))]) [(u "req_str"); (u "opt_str"); (u "opt_int"); (u "opt_str_list"); (u "req_str_list")]] = true.
Proof. vm_compute. reflexivity. Qed.

(** test_04_message.py:266-270 *)
Example TestMessage_test_request :
  all [
  match (do m <- (construct dummy [((u "req_str"), (VStr (u "Fair"))); ((u "req_str_list"), (VList [(VStr (u "game"))]))]) ; request dummy false m (u "http://example.com") false) with Ok x => match split_on 63 x with [a; b] => ueqb a (u "http://example.com") && py_eq (query b) (query (u "req_str=Fair&req_str_list=game")) | _ => false end | _ => false end] = true.
Proof. vm_compute. reflexivity. Qed.

(** test_04_message.py:272-285 *)
Example TestMessage_test_get :
  all [
  match (construct dummy [((u "req_str"), (VStr (u "Fair"))); ((u "opt_str"), (VStr (u "game"))); ((u "opt_int"), (VInt (9))); ((u "opt_str_list"), (VList [(VStr (u "one")); (VStr (u "two"))])); ((u "req_str_list"), (VList [(VStr (u "spike")); (VStr (u "lee"))])); ((u "opt_json"), (VStr (u "{""ford"": ""green""}")))]) with Ok m => py_eq (get m (u "req_str") VNone) (VStr (u "Fair")) | _ => false end;
  match (construct dummy [((u "req_str"), (VStr (u "Fair"))); ((u "opt_str"), (VStr (u "game"))); ((u "opt_int"), (VInt (9))); ((u "opt_str_list"), (VList [(VStr (u "one")); (VStr (u "two"))])); ((u "req_str_list"), (VList [(VStr (u "spike")); (VStr (u "lee"))])); ((u "opt_json"), (VStr (u "{""ford"": ""green""}")))]) with Ok m => py_eq (get m (u "opt_int") (VInt (8))) (VInt (9)) | _ => false end;
  match (construct dummy [((u "req_str"), (VStr (u "Fair"))); ((u "opt_str"), (VStr (u "game"))); ((u "opt_int"), (VInt (9))); ((u "opt_str_list"), (VList [(VStr (u "one")); (VStr (u "two"))])); ((u "req_str_list"), (VList [(VStr (u "spike")); (VStr (u "lee"))])); ((u "opt_json"), (VStr (u "{""ford"": ""green""}")))]) with Ok m => py_eq (get m (u "missing") VNone) VNone | _ => false end;
  match (construct dummy [((u "req_str"), (VStr (u "Fair"))); ((u "opt_str"), (VStr (u "game"))); ((u "opt_int"), (VInt (9))); ((u "opt_str_list"), (VList [(VStr (u "one")); (VStr (u "two"))])); ((u "req_str_list"), (VList [(VStr (u "spike")); (VStr (u "lee"))])); ((u "opt_json"), (VStr (u "{""ford"": ""green""}")))]) with Ok m => py_eq (get m (u "missing") (VList [])) (VList []) | _ => false end] = true.
Proof. vm_compute. reflexivity. Qed.

(** test_04_message.py:287-289 *)
Example TestMessage_test_int_instead_of_string :
  all [
  raises EValueError (construct dummy [((u "req_str"), (VInt (2))); ((u "req_str_list"), (VList [(VStr (u "foo"))]))])] = true.
Proof. vm_compute. reflexivity. Qed.

(** test_04_message.py:296-300 *)
Example test_to_jwt :
  all [
  match (do m <- (construct (cdef C_Message) [((u "a"), (VStr (u "foo"))); ((u "b"), (VStr (u "bar"))); ((u "c"), (VStr (u "tjoho")))]) ; do x <- message_to_jwt signer (cdef C_Message) m [7] (u "RS256") ; do r <- from_jwt (kj_env 0 [[]]) 0 (cdef C_Message) x true true [] ; Ok (fst r)), (construct (cdef C_Message) [((u "a"), (VStr (u "foo"))); ((u "b"), (VStr (u "bar"))); ((u "c"), (VStr (u "tjoho")))]) with Ok a, Ok b => msg_eq (cdef C_Message) (cdef C_Message) a b | _, _ => false end;
  match (do m <- (construct (cdef C_Message) [((u "a"), (VStr (u "foo"))); ((u "b"), (VStr (u "bar"))); ((u "c"), (VStr (u "tjoho")))]) ; do x <- message_to_jwt signer (cdef C_Message) m [7] (u "ES256") ; do r <- from_jwt (kj_env 0 [[]]) 0 (cdef C_Message) x true true [] ; Ok (fst r)), (construct (cdef C_Message) [((u "a"), (VStr (u "foo"))); ((u "b"), (VStr (u "bar"))); ((u "c"), (VStr (u "tjoho")))]) with Ok a, Ok b => msg_eq (cdef C_Message) (cdef C_Message) a b | _, _ => false end] = true.
Proof. vm_compute. reflexivity. Qed.

(** test_04_message.py:314-318 *)
Example test_to_dict_with_message_obj :
  all [
  match (do m <- (construct (cdef C_Message) [((u "a"), (VDict [((u "a"), (VDict [((u "foo"), (VDict [((u "bar"), (VList [(VDict [((u "bat"), (VList []))])]))]))]))]))]) ; to_dict (cdef C_Message) m) with Ok d => py_eq (VDict d) (VDict [((u "a"), (VDict [((u "a"), (VDict [((u "foo"), (VDict [((u "bar"), (VList [(VDict [((u "bat"), (VList []))])]))]))]))]))]) | _ => false end] = true.
Proof. vm_compute. reflexivity. Qed.

(** test_04_message.py:321-325 *)
Example test_to_dict_with_raw_types :
  all [
  match (do m <- (construct (cdef C_Message) [((u "c_default"), (VList []))]) ; to_dict (cdef C_Message) m) with Ok d => py_eq (VDict d) (VDict [((u "c_default"), (VList []))]) | _ => false end] = true.
Proof. vm_compute. reflexivity. Qed.

(** test_04_message.py:328-350 *)
Example test_msg_deserializer :
  all [
  item_is (do i <- (read_dict dummy (VDict [((u "req_str"), (VStr (u "Fair"))); ((u "req_str_list"), (VList [(VStr (u "spike")); (VStr (u "lee"))])); ((u "opt_int"), (VInt (9)))])) ; do m0 <- construct with_msg [] ; do m1 <- keep (setitem with_msg m0 (u "msg") (VMsg C_Message i)) ; do m2 <- keep (setitem with_msg m1 (u "opt_str") (VStr (u "string"))) ; do x <- to_json with_msg m2 ; read_json with_msg x) (u "opt_str") (VStr (u "string"));
  keys_are (inner (do i <- (read_dict dummy (VDict [((u "req_str"), (VStr (u "Fair"))); ((u "req_str_list"), (VList [(VStr (u "spike")); (VStr (u "lee"))])); ((u "opt_int"), (VInt (9)))])) ; do m0 <- construct with_msg [] ; do m1 <- keep (setitem with_msg m0 (u "msg") (VMsg C_Message i)) ; do m2 <- keep (setitem with_msg m1 (u "opt_str") (VStr (u "string"))) ; do x <- to_json with_msg m2 ; read_json with_msg x) (u "msg")) [(u "req_str"); (u "req_str_list"); (u "opt_int")]] = true.
Proof. vm_compute. reflexivity. Qed.

(** test_04_message.py:353-376 *)
Example test_msg_list_deserializer :
  all [
  item_is (do i <- (read_dict dummy (VDict [((u "req_str"), (VStr (u "Fair"))); ((u "req_str_list"), (VList [(VStr (u "spike")); (VStr (u "lee"))])); ((u "opt_int"), (VInt (9)))])) ; do m0 <- construct with_msgs [] ; do m1 <- keep (setitem with_msgs m0 (u "msgs") (VList [VMsg C_Message i])) ; do m2 <- keep (setitem with_msgs m1 (u "opt_str") (VStr (u "string"))) ; do x <- to_json with_msgs m2 ; read_json with_msgs x) (u "opt_str") (VStr (u "string"));
  length_is (do i <- (read_dict dummy (VDict [((u "req_str"), (VStr (u "Fair"))); ((u "req_str_list"), (VList [(VStr (u "spike")); (VStr (u "lee"))])); ((u "opt_int"), (VInt (9)))])) ; do m0 <- construct with_msgs [] ; do m1 <- keep (setitem with_msgs m0 (u "msgs") (VList [VMsg C_Message i])) ; do m2 <- keep (setitem with_msgs m1 (u "opt_str") (VStr (u "string"))) ; do x <- to_json with_msgs m2 ; read_json with_msgs x) (u "msgs") 1;
  keys_are (nth_inner 0 (do i <- (read_dict dummy (VDict [((u "req_str"), (VStr (u "Fair"))); ((u "req_str_list"), (VList [(VStr (u "spike")); (VStr (u "lee"))])); ((u "opt_int"), (VInt (9)))])) ; do m0 <- construct with_msgs [] ; do m1 <- keep (setitem with_msgs m0 (u "msgs") (VList [VMsg C_Message i])) ; do m2 <- keep (setitem with_msgs m1 (u "opt_str") (VStr (u "string"))) ; do x <- to_json with_msgs m2 ; read_json with_msgs x) (u "msgs")) [(u "req_str"); (u "req_str_list"); (u "opt_int")]] = true.
Proof. vm_compute. reflexivity. Qed.

(** test_04_message.py:379-400 *)
Example test_msg_list_deserializer_dict :
  all [
  item_is (do i <- Ok (@nil (ustr * value)) ; do m0 <- construct with_msgs [] ; do m1 <- keep (setitem with_msgs m0 (u "msgs") (VDict [((u "req_str"), (VStr (u "Fair"))); ((u "req_str_list"), (VList [(VStr (u "spike")); (VStr (u "lee"))])); ((u "opt_int"), (VInt (9)))])) ; do m2 <- keep (setitem with_msgs m1 (u "opt_str") (VStr (u "string"))) ; do x <- to_json with_msgs m2 ; read_json with_msgs x) (u "opt_str") (VStr (u "string"));
  length_is (do i <- Ok (@nil (ustr * value)) ; do m0 <- construct with_msgs [] ; do m1 <- keep (setitem with_msgs m0 (u "msgs") (VDict [((u "req_str"), (VStr (u "Fair"))); ((u "req_str_list"), (VList [(VStr (u "spike")); (VStr (u "lee"))])); ((u "opt_int"), (VInt (9)))])) ; do m2 <- keep (setitem with_msgs m1 (u "opt_str") (VStr (u "string"))) ; do x <- to_json with_msgs m2 ; read_json with_msgs x) (u "msgs") 1;
  keys_are (nth_inner 0 (do i <- Ok (@nil (ustr * value)) ; do m0 <- construct with_msgs [] ; do m1 <- keep (setitem with_msgs m0 (u "msgs") (VDict [((u "req_str"), (VStr (u "Fair"))); ((u "req_str_list"), (VList [(VStr (u "spike")); (VStr (u "lee"))])); ((u "opt_int"), (VInt (9)))])) ; do m2 <- keep (setitem with_msgs m1 (u "opt_str") (VStr (u "string"))) ; do x <- to_json with_msgs m2 ; read_json with_msgs x) (u "msgs")) [(u "req_str"); (u "req_str_list"); (u "opt_int")]] = true.
Proof. vm_compute. reflexivity. Qed.

(** test_04_message.py:403-419 *)
Example test_msg_list_deserializer_url :
  all [
  raises EDecodeError (do i <- (construct dummy [((u "req_str"), (VStr (u "Fair"))); ((u "req_str_list"), (VList [(VStr (u "spike")); (VStr (u "lee"))])); ((u "opt_int"), (VInt (9)))]) ; do x <- url dummy i ; do m0 <- construct with_msgs [] ; keep (setitem with_msgs m0 (u "msgs") (VList [VStr x])))] = true.
Proof. vm_compute. reflexivity. Qed.

(** test_04_message.py:422-424 *)
Example test_add_value :
  all [
  raises EValueError (construct dummy [((u "req_str"), (VList [(VStr (u "1")); (VStr (u "2"))]))])] = true.
Proof. vm_compute. reflexivity. Qed.

(** test_04_message.py:427-432 *)
Example test_type_check :
  all [
  negb (type_check TInt [VInt 1; VInt 2] (VInt 3) false);
  negb (type_check (TList TInt) [VInt 1; VInt 2] (VList [VInt 2; VInt 3]) false);
  type_check (TList TInt) [VInt 1; VInt 2] (VList [VInt 2; VInt 1]) false;
  type_check TBool [] VNone true] = true.
Proof. vm_compute. reflexivity. Qed.

(** test_04_message.py:435-439 *)
Example test_json_type_error :
  all [
  has (read_json (cdef C_Message) (u "{""key"":""A byte string""}")) (u "key")] = true.
Proof. vm_compute. reflexivity. Qed.

(** test_04_message.py:464-470 *)
Example test_no_suitable_keys :
  all [
  raises ECrypto (do m <- (construct (cdef C_Message) [((u "a"), (VStr (u "foo"))); ((u "b"), (VStr (u "bar"))); ((u "c"), (VStr (u "tjoho")))]) ; do x <- message_to_jwt signer (cdef C_Message) m [8] (u "RS256") ; do r <- from_jwt (kj_env 0 [[]]) 0 (cdef C_Message) x true true [] ; Ok (fst r))] = true.
Proof. vm_compute. reflexivity. Qed.

(** test_04_message.py:473-478 *)
Example test_only_extras :
  all [
  match (construct dummy [((u "foo"), (VStr (u "bar"))); ((u "extra"), (VStr (u "value")))]) with Ok m => only_extras dummy m && match keep (setitem dummy m (u "req_str") (VStr (u "string"))) with Ok m => negb (only_extras dummy m) | _ => false end | _ => false end] = true.
Proof. vm_compute. reflexivity. Qed.

(** test_04_message.py:481-487 *)
Example test_weed :
  all [
  keys_are (do m <- (construct dummy [((u "foo"), (VStr (u "bar"))); ((u "extra"), (VStr (u "value")))]) ; keep (setitem dummy m (u "req_str") (VStr (u "string")))) [(u "req_str"); (u "foo"); (u "extra")];
  keys_are (do m <- (do m <- (construct dummy [((u "foo"), (VStr (u "bar"))); ((u "extra"), (VStr (u "value")))]) ; keep (setitem dummy m (u "req_str") (VStr (u "string")))) ; Ok (weed dummy m)) [(u "req_str")]] = true.
Proof. vm_compute. reflexivity. Qed.

(** test_04_message.py:490-495 *)
Example test_msg_ser :
  all [
  value_is (ser_dict Ok SerMsg (VStr (u "a.b.c"))) (VStr (u "a.b.c"));
  raises EMessageException (ser_dict Ok SerMsg (VList [(VInt (1)); (VInt (2))]))] = true.
Proof. vm_compute. reflexivity. Qed.

(** test_04_message.py:498-508 *)
Example test_error_description :
  all [
  raises EValueError (snd (match (construct (cdef C_oauth2_ResponseMessage) [((u "error"), (VStr (u "foobar"))); ((u "error_description"), (VStr [197; 196; 214]))]) with Ok d => verify no_env (args []) None C_oauth2_ResponseMessage d | Err e => ([], Err e) end));
  raises EValueError (snd (match (construct (cdef C_oauth2_ResponseMessage) [((u "error"), (VStr (u "foobar"))); ((u "error_description"), (VStr [97; 98; 99; 10; 100; 101; 102]))]) with Ok d => verify no_env (args []) None C_oauth2_ResponseMessage d | Err e => ([], Err e) end));
  runs (match (construct (cdef C_oauth2_ResponseMessage) [((u "error"), (VStr (u "foobar"))); ((u "error_description"), (VStr (u "abc def")))]) with Ok d => verify no_env (args []) None C_oauth2_ResponseMessage d | Err e => ([], Err e) end)] = true.
Proof. vm_compute. reflexivity. Qed.
