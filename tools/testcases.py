preludes = {}

# ---------------------------------------------------------------- time_util
section("test_03_time_util.py")
preludes["test_03_time_util.py"] = '''Open Scope Z_scope.
Definition z_is (r : res Z) (z : Z) : bool := match r with Ok x => x =? z | Err _ => false end.
Definition b_is (r : res bool) (b : bool) : bool := match r with Ok x => Bool.eqb x b | Err _ => false end.
Definition added (text dur : ustr) : res (option tm) := do t <- str_to_time text ; match t with Some t => add_duration 1000 t dur | None => Ok None end.
Definition tm_is (r : res (option tm)) (l : list Z) : bool := match r with Ok (Some t) => forallb (fun p => fst p =? snd p) (combine l (tm_list t)) | _ => false end.
(** a time of the year 2020 for the tests that ask the clock *)
Definition now := 1600000000.
Definition micro := now * 1000000.
Definition secs (n : Z) : delta := {| dl_days := 0; dl_seconds := n; dl_us := 0; dl_ms := 0; dl_minutes := 0; dl_hours := 0; dl_weeks := 0 |}.
'''
# floats are not modelled: f_quotient(3.123, 3), modulo(3.123, 3) and f_quotient(13.123, 1, 13) are left out
t("test_f_quotient", *["z_is (fq (%d) 3 0) (%d)" % x for x in [(-1, -1), (0, 0), (1, 0), (2, 0), (3, 1)]])
t("test_modulo", *["z_is (modulo (%d) 3 0) (%d)" % x for x in [(-1, 2), (0, 0), (1, 1), (2, 2), (3, 0)]])
t("test_f_quotient_2", *["z_is (fq (%d) 1 13) (%d)" % x for x in [(0, -1)] + [(i, 0) for i in range(1, 13)] + [(13, 1)]])
t("test_modulo_2", *["z_is (modulo (%d) 1 13) (%d)" % x for x in [(0, 12)] + [(i, i) for i in range(1, 13)] + [(13, 1)]])
dur = "match parse_duration %s with Ok (pos, d) => Bool.eqb pos %s && (d_year d =? 1) && (d_mon d =? 3) && (d_mday d =? 5) && (d_hour d =? 7) && (d_min d =? 10) && match d_sec d with DFlt s => ueqb s (u \"3.3\") | _ => false end | _ => false end"
t("test_parse_duration", dur % (U("P1Y3M5DT7H10M3.3S"), "true"))
t("test_add_duration_1", "tm_is (added %s %s) [2001; 4; 17; 19; 23; 17]" % (U("2000-01-12T12:13:14Z"), U("P1Y3M5DT7H10M3S")))
t("test_add_duration_2", "tm_is (added %s %s) [2000; 1; 14; 9; 0; 0]" % (U("2000-01-12T00:00:00Z"), U("PT33H")))
t("test_add_duration_3", "tm_is (added %s %s) [2000; 2; 12; 0; 0; 0; 5; 43; 0]" % (U("2000-01-12T00:00:00Z"), U("P32D")))
t("test_add_duration_4", "match added %s %s with Ok None => true | _ => false end" % (U("2000-01-12T00:00:00Z"), U("-P32D")))
t("test_str_to_time", "match str_to_time %s with Ok (Some t) => z_is (timegm (tm_year t) (tm_mon t) (tm_mday t) (tm_hour t) (tm_min t) (tm_sec t)) 947635200 | _ => false end" % U("2000-01-12T00:00:00Z"))
t("test_instant", "match (do s <- instant now ; str_to_time s), gmtime now with Ok (Some t), Ok n => tm_le t n | _, _ => false end")
t("test_valid", "b_is (valid now (PStr %s)) false" % U("2000-01-12T00:00:00Z"), "b_is (valid now (PStr %s)) true" % U("2021-01-12T00:00:00Z"),
  "b_is (do s <- instant now ; valid now (PStr s)) false", "b_is (do s <- in_a_while micro (secs 10) ; valid now (PStr s)) true")
t("test_timeout", "b_is (do s <- in_a_while micro (secs (-1)) ; valid now (PStr s)) false")
for n, f, r in [("test_before", "before", 0), ("test_after", "after", 1), ("test_not_before", "not_before", 1), ("test_not_on_or_after", "not_on_or_after", 0)]:
    t(n, "b_is (%s now (PStr %s)) %s" % (f, U("2020-01-01T00:00:00Z"), ["false", "true"][r]), "b_is (%s now (PStr %s)) %s" % (f, U("2021-01-01T00:00:00Z"), ["true", "false"][r]))
t("test_parse_duration_1", dur % (U("-P1Y3M5DT7H10M3.3S"), "false"))
t("test_parse_duration_error", *[raises("TimeUtilError", "(parse_duration %s)" % U(s)) for s in
  ["-P1Y-3M5DT7H10M3.3S", "-P1Y3M5DU7H10M3.3S", "-P1Y3M5DT", "-P1Y3M5DU7H10M3.S", "-P1Y3M5DT7H10MxS", "-P1Y4M4DT7H10.5M3S"]])
t("test_time_a_while_ago", "z_is (do x <- time_a_while_ago micro (secs 10) ; Ok (micro - x)) 10000000")
t("test_a_while_ago", "match (do s <- a_while_ago micro (secs 10) ; str_to_time s) with Ok (Some t) => z_is (timegm (tm_year t) (tm_mon t) (tm_mday t) (tm_hour t) (tm_min t) (tm_sec t)) (now - 10) | _ => false end")
t("test_shift_time", "z_is (do x <- shift_time micro 10 ; Ok (x - micro)) 10000000")
t("test_str_to_time_str_error", raises("AttributeError", "(str_to_time %s)" % U("2000-01-12T00:00:00ZABC")))
t("test_str_to_time_1", "match str_to_time [] with Ok None => true | _ => false end")
t("test_before_0", "b_is (before now (PStr [])) true", "b_is (before now (PInt 0)) true")
t("test_before_int", "b_is (before now (PInt (now - 1))) false", "b_is (before now (PInt (now + 2))) true")
t("test_later_than_int", "b_is (later_than (PInt now) (PInt (now - 1))) true", "b_is (later_than (PInt (now - 1)) (PInt now)) false")
t("test_later_than_str", "b_is (do a <- in_a_while micro (secs 10) ; do b <- in_a_while micro (secs 20) ; later_than (PStr b) (PStr a)) true",
  "b_is (do a <- in_a_while micro (secs 10) ; do b <- in_a_while micro (secs 20) ; later_than (PStr a) (PStr b)) false")
t("test_utc_time", "utc_time_sans_frac (micro + 999999) =? now")

# ---------------------------------------------------------------- message
section("test_04_message.py")
preludes["test_04_message.py"] = '''(** test_04_message.py:107-115 *)
Definition dummy : clsdef := {| cd_name := u "DummyMessage";
  cd_param := [(u "req_str", sp01); (u "opt_str", sp00); (u "opt_int", sp04); (u "opt_str_list", sp05); (u "req_str_list", sp06); (u "opt_json", sp09)];
  cd_default := []; cd_allowed := [] |}.
(** MsgMessage of 296-300 and 322-326; OPTIONAL_LIST_OF_MESSAGES is message.py:990-991 *)
Definition with_msg : clsdef := {| cd_name := u "MsgMessage"; cd_param := [(u "msg", sp14); (u "opt_str", sp00)]; cd_default := []; cd_allowed := [] |}.
Definition with_msgs : clsdef := {| cd_name := u "MsgMessage";
  cd_param := [(u "msgs", mkP (TList (TMsg C_Message)) false (Some SerMsgList) (Some DeMsgList) false); (u "opt_str", sp00)]; cd_default := []; cd_allowed := [] |}.
'''
full = dict(req_str="Fair", opt_str="game", opt_int=9, opt_str_list=["one", "two"], req_str_list=["spike", "lee"], opt_json='{"ford": "green"}')
fk = list(full)
small = {"req_str": "Fair", "req_str_list": ["spike", "lee"], "opt_int": 9}
t("test_sp_sep_list_deserializer", "value_is (l_deser the_lib DeSpSep %s Furl) %s" % (V("foo bar zen"), V(["foo", "bar", "zen"])), "value_is (l_deser the_lib DeSpSep %s Furl) %s" % (V(["foo bar zen"]), V(["foo", "bar", "zen"])))
fb = {"foo": ["bar", "stool"]}
t("test_json_serializer", "value_is (do x <- json_dumps %s ; json_loads x) %s" % (V(fb), V(fb)))
t("test_json_deserializer", "value_is (do x <- json_dumps %s ; l_deser the_lib DeJson (VStr x) Furl) %s" % (V(fb), V(fb)))
t("TestMessage.test_json_serialization", keys(rjs("dummy", js("dummy", new("dummy", full))), *fk))
t("TestMessage.test_from_dict", keys("(read_dict dummy %s)" % V(small), *small))
for n, d in [("test_from_dict_lang_tag_unknown_key", dict(small, **{'attribute#se': 'value'})), ("test_from_dict_lang_tag", {"req_str#se": "Fair", "req_str_list": ["spike", "lee"], "opt_int": 9})]:
    t("TestMessage." + n, keys("(read_dict dummy %s)" % V(d), *d))
jso = '{"req_str": "Fair", "req_str_list": ["spike", "lee"], "opt_int": 9}'
t("TestMessage.test_from_json", keys(rj("dummy", jso), "req_str", "req_str_list", "opt_int"), item(rj("dummy", jso), "opt_int", 9))
t("TestMessage.test_single_optional", raises("ValueError", rj("dummy", '{"req_str": "Fair", "req_str_list": ["spike", "lee"], "opt_int": [9, 10]}')))
jso = '{"req_str": "Fair", "req_str_list": ["spike", "lee"], "extra": "out"}'
t("TestMessage.test_extra_param", keys(rj("dummy", jso), "req_str", "req_str_list", "extra"), item(rj("dummy", jso), "extra", "out"))
fjwt = "(do m <- %s ; do x <- message_to_jwt signer %s m [%s] (u \"%s\") ; do r <- from_jwt (kj_env 0 [[]]) 0 %s x true true [] ; Ok (fst r))"
fjwe = "(do m <- %s ; do x <- to_jwe signer %s m [7] (u \"%s\") (u \"%s\") ; do d <- construct %s [] ; keep (from_jwe signer %s d x [7]))"
t("TestMessage.test_to_from_jwt", keys(fjwt % (new("dummy", full), "dummy", "7", "HS256", "dummy"), *fk))
t("TestMessage.test_to_from_jwe", keys(fjwe % (new("dummy", full), "dummy", "A128CBC-HS256", "A128KW", "dummy", "dummy"), *fk))
t("TestMessage.test_to_jwe_from_jwt", keys("(do m <- %s ; do x <- to_jwe signer dummy m [7] (u \"A128CBC-HS256\") (u \"A128KW\") ; do r <- from_jwt (kj_env 0 [[]]) 0 dummy x true true [] ; Ok (fst r))" % new("dummy", full), *fk))
vb = "match (do m <- %s ; verify_base dummy m) with Ok b => b | _ => false end"
more = dict(full, extra="internal")
less = {k: v for k, v in full.items() if k != "opt_json"}
t("TestMessage.test_verify", *[x for d in (full, more, less) for x in (vb % new("dummy", d), keys(new("dummy", d), *d))])
t("TestMessage.test_request", "match (do m <- %s ; request dummy false m (u \"http://example.com\") false) with Ok x => match split_on 63 x with [a; b] => ueqb a (u \"http://example.com\") && py_eq (query b) (query %s) | _ => false end | _ => false end"
  % (new("dummy", req_str="Fair", req_str_list=["game"]), U("req_str=Fair&req_str_list=game")))
g = "match %s with Ok m => py_eq (get m %s %s) %s | _ => false end"
t("TestMessage.test_get", *[g % (new("dummy", full), U(a), V(b), V(c)) for a, b, c in [("req_str", None, "Fair"), ("opt_int", 8, 9), ("missing", None, None), ("missing", [], [])]])
t("TestMessage.test_int_instead_of_string", raises("ValueError", new("dummy", req_str=2, req_str_list=['foo'])))
abc = dict(a='foo', b='bar', c='tjoho')
M = "(cdef C_Message)"
t("test_to_jwt", *[eq(M, fjwt % (new(M, abc), M, "7", a, M), new(M, abc)) for a in ("RS256", "ES256")])
x = {'a': {'foo': {'bar': [{'bat': []}]}}}
td = "match (do m <- %s ; to_dict %s m) with Ok d => py_eq (VDict d) %s | _ => false end"
t("test_to_dict_with_message_obj", td % (new(M, a=x), M, V({"a": x})))
t("test_to_dict_with_raw_types", td % (new(M, c_default=[]), M, V({"c_default": []})))
# the instances of DummyMessage are given as instances of Message: the parameters have no other serializers there
mm = "(do i <- %s ; do m0 <- construct %s [] ; do m1 <- keep (setitem %s m0 (u \"%s\") %s) ; do m2 <- keep (setitem %s m1 (u \"opt_str\") %s) ; do x <- to_json %s m2 ; read_json %s x)"
one = mm % ("(read_dict dummy %s)" % V(small), "with_msg", "with_msg", "msg", "(VMsg C_Message i)", "with_msg", V("string"), "with_msg", "with_msg")
t("test_msg_deserializer", item(one, "opt_str", "string"), keys("(inner %s (u \"msg\"))" % one, *small))
many = mm % ("(read_dict dummy %s)" % V(small), "with_msgs", "with_msgs", "msgs", "(VList [VMsg C_Message i])", "with_msgs", V("string"), "with_msgs", "with_msgs")
t("test_msg_list_deserializer", item(many, "opt_str", "string"), "length_is %s (u \"msgs\") 1" % many, keys("(nth_inner 0 %s (u \"msgs\"))" % many, *small))
many = mm % ("Ok (@nil (ustr * value))", "with_msgs", "with_msgs", "msgs", V(small), "with_msgs", V("string"), "with_msgs", "with_msgs")
t("test_msg_list_deserializer_dict", item(many, "opt_str", "string"), "length_is %s (u \"msgs\") 1" % many, keys("(nth_inner 0 %s (u \"msgs\"))" % many, *small))
t("test_msg_list_deserializer_url", raises("DecodeError", "(do i <- %s ; do x <- url dummy i ; do m0 <- construct with_msgs [] ; keep (setitem with_msgs m0 (u \"msgs\") (VList [VStr x])))" % new("dummy", small)))
t("test_add_value", raises("ValueError", new("dummy", req_str=['1', '2'])))
t("test_type_check", "negb (type_check TInt [VInt 1; VInt 2] (VInt 3) false)", "negb (type_check (TList TInt) [VInt 1; VInt 2] (VList [VInt 2; VInt 3]) false)",
  "type_check (TList TInt) [VInt 1; VInt 2] (VList [VInt 2; VInt 1]) false", "type_check TBool [] VNone true")
t("test_json_type_error", "has %s (u \"key\")" % rj(M, '{"key":"A byte string"}'))
t("test_no_suitable_keys", raises("Crypto", fjwt % (new(M, abc), M, "8", "RS256", M)))
t("test_only_extras", "match %s with Ok m => only_extras dummy m && match keep (setitem dummy m (u \"req_str\") %s) with Ok m => negb (only_extras dummy m) | _ => false end | _ => false end" % (new("dummy", foo='bar', extra='value'), V("string")))
w = "(do m <- %s ; keep (setitem dummy m (u \"req_str\") %s))" % (new("dummy", foo='bar', extra='value'), V("string"))
t("test_weed", keys(w, "req_str", "foo", "extra"), keys("(do m <- %s ; Ok (weed dummy m))" % w, "req_str"))
t("test_msg_ser", "value_is (ser_dict Ok SerMsg %s) %s" % (V("a.b.c"), V("a.b.c")), raises("MessageException", "(ser_dict Ok SerMsg %s)" % V([1, 2])))
t("test_error_description", *[vraises("ValueError", vf("C_oauth2_ResponseMessage", new(oa("ResponseMessage"), error="foobar", error_description=s))) for s in ("ÅÄÖ", "abc\ndef")]
  + ["runs " + vf("C_oauth2_ResponseMessage", new(oa("ResponseMessage"), error="foobar", error_description="abc def"))])

# ---------------------------------------------------------------- oauth2
section("test_05_oauth2.py")
AR, C = oa("AuthorizationRequest"), "C_oauth2_AuthorizationRequest"
t("test_sp_sep_list_deserializer", "value_is (l_deser the_lib DeSpSep %s Furl) %s" % (V("foo bar zen"), V(["foo", "bar", "zen"])), "value_is (l_deser the_lib DeSpSep %s Furl) %s" % (V(["foo bar zen"]), V(["foo", "bar", "zen"])))
t("test_json_serializer", "value_is (do x <- json_dumps %s ; json_loads x) %s" % (V(fb), V(fb)))
t("test_json_deserializer", "value_is (do x <- json_dumps %s ; l_deser the_lib DeJson (VStr x) Furl) %s" % (V(fb), V(fb)))
sq = lambda C, d, s: "same_query %s %s" % (url(C, new(C, d)), U(s))
a1 = dict(response_type=["code"], client_id="foobar")
a2 = dict(response_type=["code"], client_id="foobar", redirect_uri="http://foobar.example.com/oaclient", state="cold")
a3 = dict(response_type=["token"], client_id="s6BhdRkqt3", redirect_uri="https://client.example.com/cb", state="xyz")
a4 = dict(response_type=["code"], client_id="foobar", redirect_uri="http://foobar.example.com/oaclient", scope=["foo", "bar"], state="cold")
T = "TestAuthorizationRequest."
t(T + "test_authz_req_urlencoded", sq(AR, a1, "response_type=code&client_id=foobar"))
t(T + "test_urlencoded_with_redirect_uri", sq(AR, a2, "state=cold&redirect_uri=http%3A%2F%2Ffoobar.example.com%2Foaclient&response_type=code&client_id=foobar"))
t(T + "test_urlencoded_resp_type_token", sq(AR, a3, "state=xyz&redirect_uri=https%3A%2F%2Fclient.example.com%2Fcb&response_type=token&client_id=s6BhdRkqt3"))
t(T + "test_deserialize_urlencoded", eq(AR, new(AR, a1), rurl(AR, url(AR, new(AR, a1)))))
t(T + "test_urlencoded_with_scope", sq(AR, a4, "scope=foo+bar&state=cold&redirect_uri=http%3A%2F%2Ffoobar.example.com%2Foaclient&response_type=code&client_id=foobar"))
t(T + "test_deserialize_urlencoded_multiple_params", eq(AR, new(AR, a4), rurl(AR, url(AR, new(AR, a4)))))
t(T + "test_urlencoded_missing_required", vraises("MissingRequiredAttribute", vf(C, new(AR, response_type=["code"]))))
t(T + "test_urlencoded_invalid_scope", raises("DecodeError", new(AR, dict(a4, response_type=[10]))))
t(T + "test_urlencoded_deserialize_state", item("(read_url %s %s)" % (AR, U("scope=foo+bar&state=-11&redirect_uri=http%3A%2F%2Ffoobar.example.com%2Foaclient&response_type=code&client_id=foobar")), "state", "-11"))
x = "(read_url %s %s)" % (AR, U("scope=openid&state=id-6a3fc96caa7fd5cb1c7d00ed66937134&redirect_uri=http%3A%2F%2Flocalhost%3A8087authz&response_type=code&client_id=a1b2c3"))
t(T + "test_urlencoded_deserialize_response_type", item(x, "scope", ["openid"]), item(x, "response_type", ["code"]))
t(T + "test_req_json_serialize", loads(js(AR, new(AR, a1)), {"response_type": "code", "client_id": "foobar"}))
t(T + "test_json_multiple_params", loads(js(AR, new(AR, a2)), dict(a2, response_type="code")))
t(T + "test_json_resp_type_token", loads(js(AR, new(AR, a3)), dict(a3, response_type="token")))
t(T + "test_json_serialize_deserialize", eq(AR, new(AR, a1), rjs(AR, js(AR, new(AR, a1)))))
t(T + "test_verify", "yes " + vf(C, "(read_url %s %s)" % (AR, U("redirect_uri=http%3A%2F%2Flocalhost%3A8080%2Fauthz&response_type=code&client_id=0123456789"))))
bib = {"scope": ["openid"], "state": "id-6da9ca0cc23959f5f33e8becd9b08cae", "redirect_uri": "http://localhost:8087authz", "response_type": ["code"], "client_id": "a1b2c3"}
t(T + "test_load_dict", *[item(new(AR, bib), k, v) for k, v in bib.items()])
bib["state"] = "id-b0be8bb64118c3ec5f70093a1174b039"
t(T + "test_json_serizalize_deserialize_multiple_params", *[item(rjs(AR, js(AR, new(AR, bib))), k, v) for k, v in bib.items()])
a5 = dict(response_type=["code", "token"], client_id="foobar")
a6 = dict(response_type=["code", "token"], client_id="foobar", scope=["openid", "foxtrot"])
for n, d, s in [("test_multiple_response_types", a5, "response_type=code+token&client_id=foobar"), ("test_multiple_scopes", a6, "scope=openid+foxtrot&response_type=code+token&client_id=foobar")]:
    back = rurl(AR, url(AR, new(AR, d)))
    t(T + n + "_urlencoded", "same_splits %s %s" % (url(AR, new(AR, d)), U(s)), keys(back, *d), *[item(back, k, d[k]) for k in d])
    back = rjs(AR, js(AR, new(AR, d)))
    t(T + n + "_json", loads(js(AR, new(AR, d)), {k: " ".join(v) if isinstance(v, list) else v for k, v in d.items()}), keys(back, *d), *[item(back, k, d[k]) for k in d])
for c in ("AuthorizationErrorResponse", "TokenErrorResponse"):
    d = dict(error="access_denied", state="xyz")
    t("Test%s.test_init" % c, *[item(new(oa(c), d), k, v) for k, v in d.items()])
    d = dict(error="access_denied", error_description="brewers has a four game series", foo="bar")
    t("Test%s.test_extra_params" % c, *[item(new(oa(c), d), k, v) for k, v in d.items()])
AT = oa("AccessTokenResponse")
d = dict(access_token="SlAV32hkKG", token_type="Bearer", expires_in=3600)
t("TestAccessTokenResponse.test_json_serialize", loads(js(AT, new(AT, d)), d))
d = dict(access_token="2YotnFZFEjr1zCsicMWpAA", token_type="example", expires_in=3600, refresh_token="tGzv3JOkF0XG5Qx2TlKWIA", example_parameter="example_value", scope=["inner", "outer"])
t("TestAccessTokenResponse.test_multiple_scope", item(new(AT, d), "scope", ["inner", "outer"]), "contains %s %s" % (url(AT, new(AT, d)), U("inner+outer")))
d = dict(d, extra=["local", "external"], level=3)
s1 = "scope=inner+outer&level=3&expires_in=3600&token_type=example&extra=local&extra=external&refresh_token=tGzv3JOkF0XG5Qx2TlKWIA&access_token=2YotnFZFEjr1zCsicMWpAA&example_parameter=example_value"
s2 = "access_token=2YotnFZFEjr1zCsicMWpAA&refresh_token=tGzv3JOkF0XG5Qx2TlKWIA&level=3&example_parameter=example_value&token_type=example&expires_in=3600&scope=inner+outer"
m2 = "(do m <- %s ; keep (delitem m (u \"extra\")))" % new(AT, d)
d2 = {k: v for k, v in d.items() if k != "extra"}
t("TestAccessTokenResponse.test_to_urlencoded_extended_omit", sq(AT, d, s1), "same_query %s %s" % (url(AT, m2), U(s2)),
  "match %s, %s with Ok a, Ok b => Nat.eqb (List.length a) (List.length b + 27) | _, _ => false end" % (url(AT, new(AT, d)), url(AT, m2)),
  keys(rurl(AT, url(AT, new(AT, d))), *d), keys(rurl(AT, url(AT, m2)), *d2))
AQ = oa("AccessTokenRequest")
d = dict(grant_type="authorization_code", code="SplxlOBeZQQYbYS6WxSbIA", redirect_uri="https://client.example.com/cb", extra="foo")
t("TestAccessTokenRequest.test_extra", sq(AQ, d, "code=SplxlOBeZQQYbYS6WxSbIA&redirect_uri=https%3A%2F%2Fclient.example.com%2Fcb&grant_type=authorization_code&extra=foo"), eq(AQ, new(AQ, d), rurl(AQ, url(AQ, new(AQ, d)))))
for c, d in [("AuthorizationResponse", dict(code="SplxlOBeZQQYbYS6WxSbIA", state="Fun_state", extra="foo")), ("ROPCAccessTokenRequest", dict(grant_type="password", username="johndoe", password="A3ddj3w"))]:
    t("Test%s.test_init" % c, *[item(new(oa(c), d), k, v) for k, v in d.items()])
CC = oa("CCAccessTokenRequest")
t("TestCCAccessTokenRequest.test_init", item(new(CC, scope="/foo"), "grant_type", "client_credentials"), item(new(CC, scope="/foo"), "scope", ["/foo"]))
d = dict(refresh_token="ababababab", client_id="Client_id")
x = new(oa("RefreshAccessTokenRequest"), d)
t("TestRefreshAccessTokenRequest.test_init", item(x, "grant_type", "refresh_token"), *[item(x, k, v) for k, v in d.items()], "yes " + vf("C_oauth2_RefreshAccessTokenRequest", x))
for c, d in [("TokenExchangeRequest", dict(grant_type="urn:ietf:params:oauth:grant-type:token-exchange", subject_token="ababababab", subject_token_type="urn:ietf:params:oauth:token-type:access_token")),
             ("TokenExchangeResponse", dict(access_token="bababababa", issued_token_type="urn:ietf:params:oauth:token-type:access_token", token_type="Bearer", expires_in=60))]:
    t("Test%s.test_init" % c, *[item(new(oa(c), d), k, v) for k, v in d.items()], "yes " + vf("C_oauth2_" + c, new(oa(c), d)))
RM = oa("ResponseMessage")
d = dict(error="invalid_request", error_description="Something was missing", error_uri="http://example.com/error_message.html")
m2 = "(do m <- %s ; keep (delitem m (u \"error_uri\")))" % new(RM, d)
t("TestResponseMessage_error.test_error_message", "negb (contains %s (u \"error_message\"))" % url(RM, m2), "contains %s (u \"error_message\")" % url(RM, new(RM, d)), "match %s with Ok m => is_error_message m | _ => false end" % m2)
t("TestResponseMessage_error.test_auth_error_message", "match %s with Ok m => is_error_message m | _ => false end" % new(oa("AuthorizationResponse"), error="invalid_request", error_description="Something was missing"))
f = "(oauth2_factory %s %s)" % (U("ResponseMessage"), D(error='some_error'))
t("test_factory", "made %s C_oauth2_ResponseMessage" % f, keys("(content %s)" % f, "error"))
f = "(oauth2_factory %s %s)" % (U("AuthorizationResponse"), D(client_id='client1', iss='Issuer', code='1234567'))
t("test_factory_auth_response", "made %s C_oauth2_AuthorizationResponse" % f, "yes " + vf("C_oauth2_AuthorizationResponse", "(content %s)" % f, "(args %s)" % D(client_id='client1', iss='Issuer')))
x = new(AQ, set_defaults=False)
t("test_set_default", keys(x), "has (do m <- %s ; Ok (set_defaults %s m)) (u \"grant_type\")" % (x, AQ))

# ---------------------------------------------------------------- oidc
import json as _json
section("test_06_oidc.py")
preludes["test_06_oidc.py"] = '''(** the clock of the tests and their key jars: key 7 for the owners *)
Definition now : Z := 1600000000.
Definition rub : ustr := u "https://alpha.cloud.nds.rub.de".
Definition pass : ustr := u "https://sso.qa.7pass.ctf.prosiebensat1.com".
Definition made_of (r : res value) (l : list ustr) : bool := match r with Ok (VMsg _ d) => same (dkeys d) l | _ => false end.
Definition is_link (r : res value) : bool := match r with Ok (VList (VMsg c _ :: _)) => if cls_eq_dec c C_oidc_Link then true else false | _ => false end.
Definition dict_keys (r : res value) (l : list ustr) : bool := match r with Ok (VDict d) => same (dkeys d) l | _ => false end.
Definition read (k : deserk) (f : sfmt) (r : res value) : res value := do v <- r ; l_deser the_lib k v f.
Definition packer_of (owners : list ustr) : packer := {| k_pack := fun iss alg _ lifetime payload owner recv =>
  if umem owner owners then
    do t <- json_dumps (VDict (payload ++ [(u "iss", VStr iss); (u "iat", VInt now); (u "aud", VList [VStr recv])])) ; Ok (toy_sign t alg 7)
  else Err ECrypto |}.
Definition mess_up (s : ustr) : ustr := match s with a :: k :: r => a :: (k + 1) :: r | _ => s end.
'''
dumps = _json.dumps
OS, cOS = oi("OpenIDSchema"), "C_oidc_OpenIDSchema"
t("test_openidschema", "no " + vf(cOS, rj(OS, '{"middle_name":null, "updated_at":"20170328081544", "sub":"abc"}')))
t("test_openidschema_from_json", *[raises("ValueError", rj(OS, s)) for s in [
    '{"middle_name":"fo", "updated_at":"20170328081544Z", "sub":"abc"}', '{"middle_name":true, "updated_at":"20170328081544", "sub":"abc"}',
    '{"middle_name":"fo", "updated_at":false, "sub":"abc"}', '{"middle_name":"fo", "updated_at":"20170328081544Z", "sub":true}']])
t("test_claim_booleans", *["is_ok " + rj(OS, s) for s in [
    '{"email_verified":false, "email":"foo@example.com", "sub":"abc"}', '{"email_verified":true, "email":"foo@example.com", "sub":"abc"}',
    '{"phone_number_verified":false, "phone_number":"+1 555 200000", "sub":"abc"}', '{"phone_number_verified":true, "phone_number":"+1 555 20000", "sub":"abc"}']])
t("test_claim_not_booleans", *[raises("ValueError", rj(OS, s)) for s in [
    '{"email_verified":"Not", "email":"foo@example.com", "sub":"abc"}', '{"email_verified":"Sure", "email":"foo@example.com", "sub":"abc"}',
    '{"phone_number_verified":"Not", "phone_number":"+1 555 200000", "sub":"abc"}', '{"phone_number_verified":"Sure", "phone_number":"+1 555 20000", "sub":"abc"}']])
creq = {"userinfo": {"given_name": {"essential": True}, "nickname": None, "email": {"essential": True}, "email_verified": {"essential": True},
                     "picture": None, "http://example.info/claims/groups": None},
        "id_token": {"auth_time": {"essential": True}, "acr": {"values": ["urn:mace:incommon:iap:silver"]}}}
CL, AD, LK = "(DeOneOf C_oidc_Claims)", "(DeOneOf C_oidc_AddressClaim)", "DeLink"
mo = lambda k, f, r, ks: "made_of (read %s %s %s) %s" % (k, f, r, K(*ks))
okv = lambda v: "(Ok %s)" % v
msg = lambda c, d: "(do m <- %s ; Ok (VMsg C_oidc_%s m))" % (new(oi(c), d), c)
asjson = lambda c, d: "(do x <- %s ; Ok (VStr x))" % js(oi(c), new(oi(c), d))
asdict = lambda c, d: "(do m <- %s ; do x <- to_dict %s m ; Ok (VDict x))" % (new(oi(c), d), oi(c))
ser = lambda fn, r, f: "(do v <- %s ; %s v (u \"%s\") 0)" % (r, fn, f)
t("test_claims_deser", mo(CL, "Fjson", okv(V(dumps(creq))), ["userinfo", "id_token"]))
cl = {"name": {"essential": True}, "nickname": None, "email": {"essential": True}, "email_verified": {"essential": True}, "picture": None}
t("test_claims_deser_dict", mo(CL, "Fjson", asjson("Claims", cl), cl), mo(CL, "Fdict", asdict("Claims", cl), cl))
ad = dict(street_address="Kasamark 114", locality="Umea", country="Sweden")
t("test_address_deser", mo(AD, "Fjson", asjson("AddressClaim", ad), ad), mo(AD, "Fjson", asdict("AddressClaim", ad), ad))
t("test_msg_ser_json", mo(AD, "Fjson", ser("msg_ser_json", msg("AddressClaim", ad), "json"), ad))
t("test_msg_ser_json_from_dict", mo(AD, "Fjson", ser("msg_ser_json", okv(V(ad)), "json"), ad))
t("test_msg_ser_json_to_dict", mo(AD, "Fdict", ser("msg_ser_json", msg("AddressClaim", ad), "dict"), ad))
t("test_msg_ser_dict_to_dict", mo(AD, "Fdict", ser("msg_ser_json", okv(V(ad)), "dict"), ad))
t("test_msg_ser_urlencoded", mo(AD, "Furl", ser("msg_ser", asdict("AddressClaim", ad), "urlencoded"), ad))
t("test_msg_ser_dict", mo(AD, "Fdict", ser("msg_ser", asdict("AddressClaim", ad), "dict"), ad))
t("test_msg_ser_from_dict", mo(AD, "Fdict", ser("msg_ser", okv(V(ad)), "dict"), ad))
t("test_claims_ser_json", mo(CL, "Fjson", ser("claims_ser", msg("Claims", cl), "json"), cl))
txt = lambda fn, C, r: "(do v <- %s ; match v with VStr x => %s %s x | _ => Err ETypeError end)" % (r, fn, C)
t("test_claims_ser_from_dict_to_json", keys(txt("read_json", oi("Claims"), ser("claims_ser", okv(V(cl)), "json")), *cl))
t("test_claims_ser_from_dict_to_urlencoded", keys(txt("read_url", oi("Claims"), ser("claims_ser", okv(V(cl)), "urlencoded")), *cl))
t("test_claims_ser_from_dict_to_dict", keys("(do v <- %s ; match v with VDict x => construct %s x | _ => Err ETypeError end)" % (ser("claims_ser", okv(V(cl)), "dict"), oi("Claims")), *cl))
t("test_claims_ser_from_dict_to_foo", raises("OidcMsgError", ser("claims_ser", okv(V(cl)), "foo")))
t("test_claims_ser_wrong_type", raises("MessageException", ser("claims_ser", okv(V(dumps(cl))), "dict")))
rel = "http://openid.net/specs/connect/1.0/issuer"
t("test_discovery_request", keys(rj(oi("DiscoveryRequest"), dumps({'rel': rel, 'resource': 'diana@localhost'})), "rel", "resource"))
lk = dict(href='https://example.com/op', rel=rel)
t("test_discovery_response", keys("(do l <- %s ; construct %s [(u \"subject\", %s); (u \"links\", VList [l])])" % (msg("Link", lk), oi("JRD"), V('diana@localhost')), "subject", "links"))
jk = lambda r, ks: "dict_keys (do v <- %s ; match v with VStr x => json_loads x | _ => Err ETypeError end) %s" % (r, K(*ks))
t("test_link_ser1", jk(ser("link_ser", msg("Link", lk), "json"), lk))
t("test_link_ser_dict", jk(ser("link_ser", okv(V(lk)), "json"), lk),
  "match %s with Ok (VStr x) => truthy (VStr x) && same (map fst (parse_qs x)) %s | _ => false end" % (ser("link_ser", okv(V(lk)), "urlencoded"), K(*lk)))
PC, cPC = oi("ProviderConfigurationResponse"), "C_oidc_ProviderConfigurationResponse"
src6 = open("/repo/tests/test_06_oidc.py").read()


def dict_in(test, name, src=src6, env=None):
    """the dictionary literal assigned to [name] in the test function"""
    for n in ast.walk(ast.parse(src)):
        if isinstance(n, ast.ClassDef) and n.name + "." in test:
            n = [m for m in n.body if isinstance(m, ast.FunctionDef) and n.name + "." + m.name == test]
            n = n[0] if n else None
        elif not (isinstance(n, ast.FunctionDef) and n.name == test):
            n = None
        if n:
            for s in ast.walk(n):
                if isinstance(s, ast.Assign) and isinstance(s.targets[0], ast.Name) and s.targets[0].id == name and isinstance(s.value, ast.Dict):
                    return eval(compile(ast.Expression(s.value), "x", "eval"), env or {})
    raise KeyError(test)


T = "TestProviderConfigurationResponse."
r = dict_in(T + "test_deserialize", "resp")
x = rj(PC, dumps(r))
t(T + "test_deserialize", vraises("MissingRequiredAttribute", vf(cPC, x)), item(x, "user_id_types_supported", ["public", "pairwise"]), item(x, "acrs_supported", r["acrs_supported"]))
r = dict_in(T + "test_example_response", "resp")
t(T + "test_example_response", "yes " + vf(cPC, rj(PC, dumps(r))),
  keys("(keep %s)" % vf(cPC, rj(PC, dumps(r))), *(list(r) + ["grant_types_supported", "request_parameter_supported", "request_uri_parameter_supported", "require_request_uri_registration"])))
r = dict_in(T + "test_required_parameters", "provider_config")
t(T + "test_required_parameters", *[vraises("MissingRequiredAttribute", vf(cPC, new(PC, {a: b for a, b in r.items() if a != k}))) for k in r])
t(T + "test_token_endpoint_is_not_required_for_implicit_flow_only", "yes " + vf(cPC, new(PC, dict_in(T + "test_token_endpoint_is_not_required_for_implicit_flow_only", "provider_config"))))
t(T + "test_token_endpoint_is_required_for_other_than_implicit_flow_only", vraises("MissingRequiredAttribute", vf(cPC, new(PC, dict_in(T + "test_token_endpoint_is_required_for_other_than_implicit_flow_only", "provider_config")))))
RR, cRR = oi("RegistrationRequest"), "C_oidc_RegistrationRequest"
T = "TestRegistrationRequest."
r = dict_in(T + "test_deserialize", "msg")
x = vf(cRR, rj(RR, dumps(r)))
t(T + "test_deserialize", "yes " + x, keys("(keep %s)" % x, *(list(r) + ["response_types"])))
rq = dict(operation="register", default_max_age=10, require_auth_time=True, default_acr="foo", application_type="web", redirect_uris=["https://example.com/authz_cb"])
exp = dict(rq, response_types=["code"])
from urllib.parse import urlencode as _urlencode
t(T + "test_registration_request", "yes " + vf(cRR, new(RR, rq)), loads(js(RR, "(keep %s)" % vf(cRR, new(RR, rq))), exp),
  "same_query %s %s" % (url(RR, "(keep %s)" % vf(cRR, new(RR, rq))), U(_urlencode({k: v[0] if isinstance(v, list) else v for k, v in exp.items()}))))
t(T + "test_registration_request_with_coupled_encryption_params", *[vraises("MissingRequiredAttribute", vf(cRR, new(RR, {"redirect_uris": ["https://example.com/authz_cb"], e: "RS256"})))
  for e in ("request_object_encryption_enc", "id_token_encrypted_response_enc", "userinfo_encrypted_response_enc")])
RD = "(DeOneOf C_oidc_RegistrationRequest)"
t(T + "test_deser", mo(RD, "Furl", "(do x <- %s ; Ok (VStr x))" % url(RR, new(RR, rq)), exp))
t(T + "test_deser_dict", mo(RD, "Fdict", okv(V(rq)), exp))
t(T + "test_deser_dict_json", mo(RD, "Fjson", okv(V(rq)), exp))
r = dict_in("TestRegistrationResponse.test_deserialize", "msg")
x = vf("C_oidc_RegistrationResponse", rj(oi("RegistrationResponse"), dumps(r)))
t("TestRegistrationResponse.test_deserialize", "yes " + x, keys("(keep %s)" % x, *r))
AR, cAR = oi("AuthorizationRequest"), "C_oidc_AuthorizationRequest"
T = "TestAuthorizationRequest."
q = "(read_url %s %s)" % (AR, U("response_type=token%20id_token&client_id=0acf77d4-b486-4c99-bd76-074ed6a64ddf&redirect_uri=https%3A%2F%2Fclient.example.com%2Fcb&scope=openid%20profile&state=af0ifjsldkj&nonce=n-0S6_WzA2Mj"))
t(T + "test_deserialize", keys(q, 'nonce', 'state', 'redirect_uri', 'response_type', 'client_id', 'scope'), item(q, "response_type", ["token", "id_token"]), item(q, "scope", ["openid", "profile"]))
t(T + "test_verify_no_scopes", vraises("MissingRequiredAttribute", vf(cAR, new(AR, dict_in(T + "test_verify_no_scopes", "args")))))
x = new(AR, dict_in(T + "test_verify_nonce", "args"))
y = "(do m <- %s ; keep (setitem %s m (u \"nonce\") %s))" % (x, AR, V("abcdefgh"))
t(T + "test_verify_nonce", vraises("MissingRequiredAttribute", vf(cAR, x)), "yes " + vf(cAR, y), vraises("ValueError", vf(cAR, y, "(args %s)" % D(nonce='12345678'))))
x = new(AR, dict_in(T + "test_claims", "args"))
t(T + "test_claims", "yes " + vf(cAR, x), "yes " + vf(cAR, rurl(AR, url(AR, x))), "yes " + vf(cAR, rjs(AR, js(AR, x))))
x = new(AR, dict_in(T + "test_request", "args"))
y = ("(do m <- %s ; do j <- make_openid_request (packer_of [[]; u \"foobar\"]) %s m (u \"foobar\") (u \"HS256\") (u \"barfoo\") false 0 ; "
     "do m <- keep (setitem %s m (u \"request\") (VStr j)) ; do m <- keep (delitem m (u \"nonce\")) ; do m <- keep (delitem m (u \"extra\")) ; "
     "keep (setitem %s m (u \"scope\") %s))") % (x, AR, AR, AR, V(['openid', 'email']))
z = vf(cAR, y, "(jargs [])", "(kj_env now [[]; u \"foobar\"])")
t(T + "test_request", "yes " + z, "has (keep %s) (u \"extra\")" % z, "has (keep %s) (u \"nonce\")" % z, item("(keep %s)" % z, "scope", ["openid"]))
T = "TestAccessTokenResponse."
idval = {'nonce': 'KUEYfRM2VzKDaaKD', 'sub': 'EndUserSubject', 'iss': 'https://alpha.cloud.nds.rub.de', 'aud': 'TestClient'}
jwt = lambda d, life: "(do m <- %s ; snd (to_jwt signer (kj_env now [[]; rub]) C_oidc_IdToken m [7] (u \"HS256\") (VInt %d)))" % (new(oi("IdToken"), d), life)
atr = lambda c, idt, info, kw={}: vf("C_oidc_" + c, "(do j <- %s ; construct %s ((u \"id_token\", VStr j) :: %s))" % (idt, oi(c), D(info)), "(jargs %s)" % D(kw), "(kj_env now [[]; rub])")
inf = {"access_token": "accessTok", "token_type": "Bearer", "expires_in": 3600}
t(T + "test_ok_idtoken", "yes " + atr("AccessTokenResponse", jwt(idval, 300), inf))
t(T + "test_faulty_idtoken", vraises("Crypto", atr("AccessTokenResponse", "(do j <- %s ; Ok (mess_up j))" % jwt(idval, 300), inf)))
t(T + "test_wrong_alg", vraises("Crypto", atr("AccessTokenResponse", jwt(idval, 300), inf, dict(sigalg="HS512"))))
inf = {"token_type": "Bearer", "expires_in": 3600}
x = atr("AuthorizationResponse", jwt(dict(idval, access_token="accessTok"), 3600), dict(inf, access_token="accessTok"), dict(sigalg="HS256"))
t("test_at_hash", "yes " + x, "has (inner (keep %s) (verified_claim_name (u \"id_token\"))) (u \"at_hash\")" % x)
x = atr("AuthorizationResponse", jwt(dict(idval, code="grant"), 3600), dict(inf, code="grant"), dict(sigalg="HS256"))
t("test_c_hash", "runs " + x, "has (inner (keep %s) (verified_claim_name (u \"id_token\"))) (u \"c_hash\")" % x)
t("test_missing_c_hash", vraises("MissingRequiredAttribute", atr("AuthorizationResponse", jwt(idval, 3600), dict(inf, code="grant"), dict(sigalg="HS256"))))
base = {"sub": "553df2bcf909104751cfd8b2", "aud": ["5542958437706128204e0000", "554295ce3770612820620000"], "auth_time": 1441364872, "azp": "554295ce3770612820620000"}
t("test_id_token", "runs " + vf("C_oidc_IdToken", new(oi("IdToken"), dict(base, at_hash="L4Ign7TCAD_EppRbHAuCyw", iat=1600000000, exp=1600003600, iss="https://sso.qa.7pass.ctf.prosiebensat1.com"))))
t("TestAccessTokenRequest.test_example", "yes " + vf("C_oidc_AccessTokenRequest", "(read_url %s %s)" % (oi("AccessTokenRequest"), U('grant_type=authorization_code&code=SplxlOBeZQQYbYS6WxSbIA&redirect_uri=https%3A%2F%2Fclient.example.org%2Fcb'))))
t("TestAuthnToken.test_example", "yes " + vf("C_oidc_AuthnToken", new(oi("AuthnToken"), iss='https://example.com', sub='https://example,org', aud=['https://example.org/token'], jti='abcdefghijkl', exp=1600003600)))
AE = oi("AuthorizationErrorResponse")
t("TestAuthorizationErrorResponse.test_allowed_err", "yes " + vf("C_oidc_AuthorizationErrorResponse", new(AE, error='interaction_required')))
t("TestAuthorizationErrorResponse.test_not_allowed_err", vraises("NotAllowedValue", vf("C_oidc_AuthorizationErrorResponse", new(AE, error='other_error'))))
t("test_birthdate", *["runs " + vf(cOS, new(OS, birthdate=b, sub='jarvis')) for b in ("1971-11-23", "0000-11-23", "1971")])
f = "(oidc_factory %s %s)" % (U("DiscoveryRequest"), D(resource='local@domain', rel=rel))
t("test_factory", "made %s C_oidc_DiscoveryRequest" % f, keys("(content %s)" % f, "resource", "rel"))
f = "(oidc_factory %s %s)" % (U("ResponseMessage"), D(error='some_error'))
t("test_factory_chain", "made %s C_oauth2_ResponseMessage" % f, keys("(content %s)" % f, "error"))
x = "(l_deser the_lib DeDict %s Fdict)" % V({'foo': 'bar'})
# the format 'foo', a ValueError, has no counterpart in the model
t("test_dict_deser", "value_is %s %s" % (x, V(dumps({'foo': 'bar'}))), "value_is (read DeDict Fdict %s) %s" % (x, V(dumps({'foo': 'bar'}))))
cm = lambda v, d, b: "match claims_match %s %s with Ok x => Bool.eqb x %s | _ => false end" % (V(v), "None" if d is None else "(Some %s)" % D(d), b)
t("test_claims_match", cm(['val'], None, "true"), cm('val', {'value': 'val'}, "true"), cm('val', {'value': 'other'}, "false"), cm('val', {'values': ['val', 'other']}, "true"),
  cm('val', {'value': 'val', 'essential': True}, "true"), cm('val', {'value': 'other', 'essential': True}, "false"), cm('val', {'essential': True}, "true"))
t("test_factory_2", "made (oidc_factory %s %s) C_oauth2_ROPCAccessTokenRequest" % (U("ROPCAccessTokenRequest"), D(username='me', password='text', scope='mar')))
t("test_link_deser", "is_link (do v <- %s ; read DeLink Fjson (Ok (VList [v])))" % ser("link_ser", msg("Link", lk), "json"))
t("test_link_deser_dict", "is_link (do v <- %s ; read DeLink Fjson (Ok (VList [v])))" % asdict("Link", lk))
t("test_proper_path", *["ueqb (proper_path %s) (u \"./foo/bar/\")" % U(s) for s in ("foo/bar", "/foo/bar", "./foo/bar", "../foo/bar")])


def vit(d, resp, check, iss="https://sso.qa.7pass.ctf.prosiebensat1.com", kiss="https://sso.qa.7pass.ctf.prosiebensat1.com", client="554295ce3770612820620000", owner=None, kw={}):
    """verify_id_token(AuthorizationResponse(id_token=pack(d), **resp), check_hash=check, iss=kiss, client_id=client)"""
    p = "(do m <- %s ; do x <- to_dict %s m ; Ok (packed now %s x))" % (new(oi("IdToken"), d), oi("IdToken"), "[]" if iss is None else "[(u \"iss\", %s)]" % V(iss))
    return "(match (do j <- %s ; construct %s ((u \"id_token\", VStr j) :: %s)) with Ok m => verify_id_token (kj_env now %s) 0 (jargs %s) %s %s (u \"id_token\") m | Err e => ([], Err e) end)" % (
        p, oi("AuthorizationResponse"), D(resp), owner or "[[]; pass]", D(dict(kw, iss=kiss, client_id=client)), oi("AuthorizationResponse"), str(check).lower())


other = "https://example.com/as"
t("test_verify_id_token", "yes " + vit(base, {}, False))
t("test_verify_id_token_wrong_issuer", vraises("ValueError", vit(base, {}, False, iss=other)))
t("test_verify_id_token_wrong_aud", vraises("ValueError", vit(base, {}, False, iss=other, client="aaaaaaaaaaaaaaaaaaaa")))
t("test_verify_id_token_mismatch_aud_azp", vraises("ValueError", vit(dict(base, azp="aaaaaaaaaaaaaaaaaaaa"), {}, False, iss=other, client="aaaaaaaaaaaaaaaaaaaa")))
lh = lambda s: "HS256:" + s
tok, tok2, code = 'AccessTokenWhichCouldBeASignedJWT', 'ACompletelyOtherAccessToken', 'AccessCode1'
t("test_verify_id_token_c_hash", "runs " + vit(dict(base, c_hash=lh(code)), dict(code=code), True))
t("test_verify_id_token_c_hash_fail", vraises("CHashError", vit(dict(base, c_hash=lh(code)), dict(code="AccessCode289"), True)))
t("test_verify_id_token_at_hash", "runs " + vit(dict(base, at_hash=lh(tok)), dict(access_token=tok), True))
t("test_verify_id_token_at_hash_fail", vraises("AtHashError", vit(dict(base, at_hash=lh(tok)), dict(access_token=tok2), True)))
t("test_verify_id_token_missing_at_hash", vraises("MissingRequiredAttribute", vit(base, dict(access_token=tok), True)))
t("test_verify_id_token_missing_c_hash", vraises("MissingRequiredAttribute", vit(base, dict(code=code), True)))
t("test_verify_id_token_at_hash_and_chash", "runs " + vit(dict(base, at_hash=lh(tok), c_hash=lh(code)), dict(access_token=tok, code=code), True))
t("test_verify_id_token_missing_iss", vraises("MissingRequiredAttribute", vit(base, {}, True, iss=None)))
t("test_verify_id_token_iss_not_in_keyjar", vraises("ValueError", vit(base, {}, True, iss="https://example.com/op")))
op = "https://example.com/op"
t("test_wrong_sign_alg", vraises("UnsupportedAlgorithm", vit(base, {}, True, iss=op, kiss=op, owner="[[]; %s]" % U("554295ce3770612820620000"), kw=dict(allowed_sign_alg="RS256"))))
t("test_correct_sign_alg", "yes " + vit(base, {}, True, iss=op, kiss=op, owner="[[]; %s; %s]" % (U(op), U("554295ce3770612820620000")), kw=dict(allowed_sign_alg="HS256")))

# ---------------------------------------------------------------- session
section("test_07_session.py")
preludes["test_07_session.py"] = '''Definition now : Z := 1600000000.
Definition iss : ustr := u "https://example.com".
(** IDTOKEN.to_jwt(key, "HS256", lifetime=300), test_07_session.py:28-30; iat is a floating-point number *)
Definition hint : res ustr :=
  do m <- construct (cdef C_oidc_IdToken) [(u "iss", VStr iss); (u "sub", VStr (u "sub")); (u "aud", VStr (u "client_1")); (u "exp", VInt (now + 300));
    (u "nonce", VStr (u "N0nce")); (u "iat", VFlt (6400000001 # 4))] ;
  snd (to_jwt signer (kj_env now []) C_oidc_IdToken m [7] (u "HS256") (VInt 300)).
'''
se = lambda c: "(cdef C_session_%s)" % c
t("TestEndSessionResponse.test_example", "is_ok " + new(se("EndSessionResponse")))
C = se("EndSessionRequest")
x = "(do h <- hint ; construct %s ((u \"id_token_hint\", VStr h) :: %s))" % (C, D(redirect_url="http://example.org/jqauthz", state="state0"))
y = vf("C_session_EndSessionRequest", rurl(C, url(C, x)), "(jargs [])", "(kj_env now [[]; iss; u \"client_1\"])")
t("TestEndSessionRequest.test_example", "runs " + y, keys("(keep %s)" % y, "__verified_id_token_hint", "id_token_hint", "redirect_url", "state"), item("(keep %s)" % y, "state", "state0"),
  item("(inner (keep %s) (u \"__verified_id_token_hint\"))" % y, "aud", ["client_1"]))
x = "(do h <- hint ; construct %s [(u \"id_token\", VStr h)])" % se("CheckSessionRequest")
t("TestCheckSessionRequest.test_example", vraises("ValueError", vf("C_session_CheckSessionRequest", x, "(jargs [])", "(kj_env now [[]])")))
t("TestCheckSessionRequest.test_example_1", "yes " + vf("C_session_CheckSessionRequest", x, "(jargs [])", "(kj_env now [iss])"))
cl = {"name": {"essential": True}, "nickname": None, "email": {"essential": True}, "verified": {"essential": True}, "picture": None}
CR, cCR = oi("ClaimsRequest"), "C_oidc_ClaimsRequest"
x = "(do a <- %s ; do b <- %s ; construct %s [(u \"userinfo\", VMsg C_oidc_Claims a); (u \"id_token\", VMsg C_oidc_Claims b)])" % (new(oi("Claims"), cl), new(oi("Claims"), auth_time=None, acr={"values": ["2"]}), CR)
t("TestClaimsRequest.test_example", "runs " + vf(cCR, x), "runs " + vf(cCR, rurl(CR, url(CR, x))), "runs " + vf(cCR, rjs(CR, js(CR, x))))
ISS, CLIENT_ID, NOW, BC = 'https://example.com', "client_1", 1600000000, "http://schemas.openid.net/event/backchannel-logout"
src7 = open("/repo/tests/test_07_session.py").read()
val = lambda n: dict_in(n, "val", src7, dict(ISS=ISS, CLIENT_ID=CLIENT_ID, NOW=NOW, BACK_CHANNEL_LOGOUT_EVENT=BC))
LT, cLT = se("LogoutToken"), "C_session_LogoutToken"
for i in (1, 2, 3):
    t("test_logout_token_%d" % i, "yes " + vf(cLT, new(LT, val("test_logout_token_%d" % i))))
for i in (4, 5, 6, 7):
    t("test_logout_token_%d" % i, vraises("ValueError", vf(cLT, new(LT, val("test_logout_token_%d" % i)))))
t("test_logout_token_with_nonce", vraises("MessageException", vf(cLT, new(LT, val("test_logout_token_with_nonce")))))
x = new(LT, val("test_logout_token_wrong_iat"))
t("test_logout_token_wrong_iat", vraises("ValueError", vf(cLT, x)), "runs " + vf(cLT, x, "(args %s)" % D(skew=60)))
x = new(LT, val("test_logout_token_wrong_aud"))
t("test_logout_token_wrong_aud", vraises("NotForMe", vf(cLT, x, "(args %s)" % D(aud='deep_purple'))), "runs " + vf(cLT, x, "(args %s)" % D(aud=CLIENT_ID)))
x = new(LT, val("test_logout_token_wrong_iss"))
t("test_logout_token_wrong_iss", vraises("NotForMe", vf(cLT, x, "(args %s)" % D(iss='deep_purple'))), "runs " + vf(cLT, x, "(args %s)" % D(iss=ISS)))
BR = se("BackChannelLogoutRequest")
x = "(do m <- %s ; do t <- to_json %s m ; do r <- construct %s [(u \"logout_token\", VStr (toy_sign t (u \"ES256\") 7))] ; do q <- url %s r ; read_url %s q)" % (new(LT, val("test_back_channel_logout_request")), LT, BR, BR, BR)
y = vf("C_session_BackChannelLogoutRequest", x, "(jargs %s)" % D(iss=ISS, aud=CLIENT_ID, skew=30), "(kj_env now [iss; u \"client_1\"])")
t("test_back_channel_logout_request", "has %s (u \"logout_token\")" % x, "yes " + y, keys("(keep %s)" % y, "logout_token", "__verified_logout_token"))

# ---------------------------------------------------------------- identity assurance
section("test_10_identity_assurance.py")
src10 = open("/repo/tests/test_10_identity_assurance.py").read()
VE, VC, IC = ida("VerificationElement"), ida("VerifiedClaims"), ida("IDAClaimsRequest")
t("test_time_stamp", "match (do s <- to_iso_at 1600000000 false 0 ; from_iso_time s) with Ok z => (z =? 1600000000)%Z | _ => false end")
now = R("VFlt (6400000001 # 4)")
e1 = "(do m <- %s ; to_dict %s m)" % (new(VE, trust_framework="TrustAreUs", time=now), VE)
e2 = "(do m <- %s ; do m <- keep (setitem %s m (u \"time\") %s) ; to_dict %s m)" % (new(VE, trust_framework="TrustAreUs"), VE, V(now), VE)
from urllib.parse import quote_plus as _quote_plus
t("test_verification_element", "match %s, %s with Ok a, Ok b => py_eq (VDict a) (VDict b) | _, _ => false end" % (e1, e2), "match (do d <- %s ; read_dict %s (VDict d)) with Ok m => truthy (VDict m) | _ => false end" % (e1, VE),
  "contains %s %s" % (url(VE, "(do m <- %s ; keep (setitem %s m (u \"time\") %s))" % (new(VE, trust_framework="TrustAreUs"), VE, V('2020-01-11T11:00:00+0100'))), U(_quote_plus('2020-01-11T11:00:00+0100'))))
t("test_verified_claims", "has %s (u \"userinfo\")" % new(oi("Claims"), dict_in("test_verified_claims", "s", src10)))
t("test_verfication_element_from_dict", "match %s with Ok m => truthy (VDict m) | _ => false end" % new(VC, dict_in("test_verfication_element_from_dict", "d", src10)))
x = new(VC, dict_in("test_userinfo_response", "resp", src10)["verified_claims"])
y = "(inner %s (u \"verification\"))" % x
t("test_userinfo_response", keys(x, "verification", "claims"), "class_is %s (u \"verification\") C_ida_VerificationElement" % x, keys(y, "trust_framework", "time", "verification_process", "evidence"),
  "length_is %s (u \"evidence\") 1" % y, item("(nth_inner 0 %s (u \"evidence\"))" % y, "type", "id_document"))
for n in ("5_1_1", "5_1_2", "5_1_3", "5_1_4", "5_3_1", "5_3_2", "5_2_1", "5_2_2", "5_2_3"):
    n = "test_userinfo_claims_request_" + n
    try:
        d = dict_in(n, "userinfo_claims", src10)["userinfo"]
    except KeyError:
        d = dict_in(n, "verified_claims", src10)
    x = vf("C_ida_IDAClaimsRequest", new(IC, d))
    t(n, "runs " + x, *(["class_is (keep %s) (u \"verified_claims\") C_ida_VerifiedClaimsRequest" % x] if "_5_1_" in n else []), "truthy (VDict (fst %s))" % x)
for n in ("6_1", "6_2", "6_3"):
    d = dict_in("test_example_" + n, "verified_claims", src10)["verified_claims"]
    x = vf("C_ida_VerifiedClaims", new(VC, d))
    y = "(inner (keep %s) (u \"verification\"))" % x
    c = ["runs " + x, item(y, "trust_framework", d["verification"]["trust_framework"])]
    if n == "6_1":
        c += [item("(nth_inner 0 %s (u \"evidence\"))" % y, "type", "id_document")]
    if n == "6_2":
        c += ["length_is %s (u \"evidence\") 2" % y, item("(nth_inner 0 %s (u \"evidence\"))" % y, "type", "id_document"), item("(nth_inner 1 %s (u \"evidence\"))" % y, "type", "utility_bill")]
    t("test_example_" + n, *c)
x = vf("C_ida_VerifiedClaims", new(VC, dict_in("test_example_6_4_2", "userinfo_response", src10)["verified_claims"]))
t("test_example_6_4_2", "runs " + x, item("(inner (keep %s) (u \"verification\"))" % x, "trust_framework", "de_aml"))
t("test_construct_5_2_1", "match (do a <- cc_set %s [] (u \"time\") (CV VNone) ; do a <- cc_set %s a (u \"evidence\") (CV VNone) ; do b <- cc_set %s [] (u \"verification\") (CC C_ida_VerificationElement a) ; "
  "do b <- cc_set %s b (u \"claims\") (CV VNone) ; cc_to_json b) with Ok s => ueqb s %s | _ => false end" % (VE, VE, VC, VC, U('{"verification": {"time": null, "evidence": null}, "claims": null}')))

# ---------------------------------------------------------------- context
section("test_12_context.py")
preludes["test_12_context.py"] = '''From Verif Require Import Model.Tenants Model.KeyContext Proofs.KeyContextSamples.
(** the key jar of a context, with the toy key jars of Proofs/KeyContextSamples.v *)
Definition keyjar_of (conf : dict value) (entity_id : ustr) : res (dict (list N)) :=
  do x <- ctx_init toy_jar None conf entity_id ; match dget x (u "keyjar") with Some (AJar k) => Ok k | _ => Err EKeyError end.
Definition owners (r : res (dict (list N))) (l : list ustr) : bool := match r with Ok k => same (dkeys k) l | _ => false end.
Definition keys_of_type (r : res (dict (list N))) (t : N) (o : ustr) : nat := match r with Ok k => List.length (filter (N.eqb t) (tj_keys k o)) | _ => 9%nat end.
'''
src12 = open("/repo/tests/test_12_context.py").read()
consts = {}
for n in ast.parse(src12).body:
    if isinstance(n, ast.Assign):
        consts[n.targets[0].id] = ast.literal_eval(n.value)
conf12 = None
for n in ast.walk(ast.parse(src12)):
    if isinstance(n, ast.Assign) and isinstance(n.targets[0], ast.Attribute) and n.targets[0].attr == "conf" and isinstance(n.value, ast.Dict):
        conf12 = ast.literal_eval(n.value)
kj = lambda c, e="https://example.com": "(keyjar_of %s %s)" % (D(c), U(e))
t("test_context", "is_ok " + kj({}, ""))
T = "TestContext."
t(T + "test_context_with_entity_id_no_keys", "owners %s []" % kj(conf12))
t(T + "test_context_with_entity_id_and_keys", "owners %s %s" % (kj(dict(conf12, keys={'key_defs': consts["KEYDEF"]})), K('', 'https://example.com')))
x = kj(dict(conf12, jwks=consts["JWKS"]))
t(T + "test_context_with_entity_id_and_jwks", "owners %s %s" % (x, K('', 'https://example.com')),
  *["Nat.eqb (keys_of_type %s %d %s) 1" % (x, n, U(o)) for n in (1, 2) for o in ("", "https://example.com")])
