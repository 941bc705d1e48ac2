#!/usr/bin/env python3
"""Writes /verif/properties.jsonl.  Edit the P list, rerun."""
import json, os
M='src/oidcmsg/message.py'; O2='src/oidcmsg/oauth2/__init__.py'; OI='src/oidcmsg/oidc/__init__.py'
SE='src/oidcmsg/oidc/session.py'; IA='src/oidcmsg/oidc/identity_assurance.py'; TU='src/oidcmsg/time_util.py'
AF='src/oidcmsg/storage/abfile.py'; EX='src/oidcmsg/storage/extension.py'; SQ='src/oidcmsg/storage/absqlalchemy.py'
IN='src/oidcmsg/storage/init.py'; CV='src/oidcmsg/storage/converter.py'; UT='src/oidcmsg/storage/utils.py'
CX='src/oidcmsg/context.py'; PK='src/oidcmsg/__init__.py'
P=[]
def p(title, statement, quantifier, why, *anchors):
    P.append(dict(id='C%02d'%(len(P)+1), title=title, statement=statement, quantifier=quantifier,
                  why_tests_cant=why, anchors=list(anchors)))

# ---- message core
p("JSON round trip",
  "For a message whose parameters hold values of their declared kind (see the stated canonical-value predicate: non-empty strings, integers, booleans, non-empty string lists, JSON objects, nested messages), and that has the parameters its class gives defaults for, parsing the text produced by to_json with a fresh instance of the same class gives back exactly the same parameters and values.",
  "every message class (library or user defined) and every canonical message content, of any size, nesting and Unicode content",
  "the set of parameter tables, strings and nestings is infinite; tests only use a few ASCII literals",
  f"{M}:Message.to_json", f"{M}:Message.from_json", f"{M}:Message.from_dict", f"{M}:Message.to_dict", f"{M}:Message._add_value")
p("urlencoded round trip",
  "For a message whose declared parameters hold non-empty strings or non-empty string lists (elements free of blanks) and whose undeclared parameters hold non-empty strings, from_urlencoded of the text produced by to_urlencoded gives back exactly the same parameters and values, and '&', '=', '+', '%', spaces and non-ASCII characters inside keys or values never leak into other parameters.",
  "every message class, every canonical content, all Unicode strings without surrogates",
  "injection bugs hide in character combinations no finite test list covers",
  f"{M}:Message.to_urlencoded", f"{M}:Message.from_urlencoded")
p("dict round trip",
  "from_dict(to_dict(m)) on a fresh instance of the same class reproduces m for canonical content (as in the JSON round trip).",
  "every message class and canonical content of any nesting",
  "infinite space of nested values", f"{M}:Message.to_dict", f"{M}:Message.from_dict")
p("verify accepts exactly the messages that satisfy the parameter table",
  "Message.verify() returns True if and only if each required parameter is present with a non-empty value (booleans may be False) and every present non-empty parameter with a restricted value set has only allowed values; otherwise it raises MissingRequiredAttribute or NotAllowedValue, and it never changes the message.",
  "every parameter table, allowed-value table and message content",
  "quantifies over all tables (users define subclasses) and all contents", f"{M}:Message.verify", f"{M}:Message._type_check")
p("declared types hold after construction",
  "After Message(**kw), from_dict or from_json succeeds, or after m[k]=v, every declared string, integer, boolean or string-list parameter that has a value holds a value of that type (integers given as text are converted; wrong types raise).",
  "every parameter table and every input dictionary of Python/JSON values",
  "the input type space is infinite and coercion rules interact", f"{M}:Message._add_value", f"{M}:Message.from_dict", f"{M}:Message.__setitem__")
p("declared types hold after urlencoded parsing",
  "After from_urlencoded succeeds every declared parameter with a value holds a value of its declared type.",
  "every parameter table and every query string",
  "needs all query strings; tests only look at string parameters", f"{M}:Message.from_urlencoded")
p("duplicated single-valued parameters are rejected",
  "If a query string gives two or more non-blank values for a declared single-valued parameter, from_urlencoded raises: TooManyValues, or the exception of another faulty parameter met before; it never silently picks one.",
  "every query string, position and spelling (percent-encoding) of the duplicates",
  "parameter-pollution needs every placement and encoding", f"{M}:Message.from_urlencoded")
p("blank values are never stored",
  "from_dict, from_json and construction never store an empty string or a list holding just an empty string.",
  "every input dictionary and parameter table", "all inputs", f"{M}:Message.from_dict")
p("parameters are processed independently",
  "The value stored under a key by from_dict depends only on the input given for that key (and the parameter table): adding, removing or reordering other entries does not change it, and entries for keys not in the input keep their old value.",
  "every pair of inputs agreeing on one key, every prior content",
  "two-run (relational) property over all inputs", f"{M}:Message.from_dict", f"{M}:Message._add_value")
p("undeclared parameters are preserved verbatim",
  "Parameters the class does not declare (and which are not language-tagged variants of declared ones) are stored unchanged by from_dict/construction and are exactly what extra() reports.",
  "every class without '*' entry and every input", "all key names and values", f"{M}:Message.from_dict", f"{M}:Message.extra")
p("to_urlencoded refuses incomplete messages",
  "Unless lax is set, to_urlencoded raises MissingRequiredAttribute exactly when a required parameter is missing from the message.",
  "every class and message content", "all tables and contents", f"{M}:Message.to_urlencoded")
p("request() only appends to the location",
  "request(location) returns the location followed by one separator and the urlencoded message; '?' is used exactly when the location has no '?', and the query component of the result (after the first '?') decodes to the old query parameters followed by the message parameters when the location has no fragment.",
  "every location string and message", "all URLs and messages", f"{M}:Message.request")
p("merging a request object (strict / lax / whitelist)",
  "After merge(ro,'strict') the request holds exactly the parameters and values of ro; after 'lax' ro's values win and all other parameters survive; after 'whitelist' with a non-empty list ro's values win and only whitelisted others survive.",
  "every request content, request object content, treatment and whitelist", "all combinations of overlapping parameters", f"{O2}:AuthorizationRequest.merge", f"{M}:Message.update")
p("weed/extra/rm_blanks partition the message",
  "weed() keeps exactly the declared parameters with unchanged values, extra() returns exactly the rest, only_extras() is true exactly when nothing declared is present, rm_blanks() removes exactly the parameters with empty values; weed and rm_blanks are idempotent.",
  "every class and message content", "all contents", f"{M}:Message.weed", f"{M}:Message.extra", f"{M}:Message.only_extras", f"{M}:Message.rm_blanks")
p("message equality is an equivalence",
  "== between messages is reflexive, symmetric and transitive, ignores parameter order, and distinguishes messages with a different value for some parameter.",
  "all messages", "relational law over all values", f"{M}:Message.__eq__")
p("messages behave like insertion-ordered maps",
  "Any sequence of m[k]=v (undeclared k), del m[k], update, get, in, len, keys on a message behaves like the same sequence on an abstract map; a key never appears twice.",
  "all operation histories", "histories are unbounded", f"{M}:Message.__setitem__", f"{M}:Message.__delitem__", f"{M}:Message.update", f"{M}:Message.__len__")
p("instances do not share state through class defaults",
  "Changing a list value of one message in place never changes another message of the same class created later or earlier.",
  "all classes with defaults, all histories of creating and mutating instances", "requires reasoning about aliasing over histories", f"{M}:Message.__init__", f"{OI}:RegistrationRequest.c_default")
p("a failed from_dict leaves the message unchanged",
  "If from_dict raises, the message holds what it held before the call.",
  "every message content and faulty input", "every failure point", f"{M}:Message.from_dict")
p("JSON text codec",
  "The JSON text written for any JSON value (null, booleans, integers, finite floating-point numbers, strings, arrays, objects with distinct keys) is pure printable ASCII, and parsing it gives back exactly that value.",
  "all JSON values with any finite binary64 numbers, all Unicode strings without surrogates", "infinite recursive value space", f"{M}:json_serializer", f"{M}:json_deserializer", f"{CV}:JSON")
p("percent-encoding codec for storage keys and query strings",
  "QPKey.deserialize(QPKey.serialize(k)) = k for each key, the serialized key contains only letters, digits and _.-~%+ , and different keys never share a serialized form.",
  "all Unicode strings without surrogates", "infinite string space", f"{CV}:QPKey")
p("list (de)serializers are inverse on blank-free lists",
  "Joining a non-empty list of strings without blanks and splitting the result returns the list; if an element contains a blank the space-separated form does not return the same list.",
  "all string lists", "all lists", f"{M}:list_serializer", f"{M}:list_deserializer", f"{M}:sp_sep_list_serializer", f"{M}:sp_sep_list_deserializer")
p("language-tagged parameters follow their base parameter",
  "from_dict/from_urlencoded treat 'name#tag' exactly like 'name' (same type checks and conversion) and store it under 'name#tag'.",
  "all parameter names, tags and values not themselves declared", "all tags", f"{M}:Message.from_dict", f"{M}:Message.from_urlencoded")
p("set_defaults never overrides",
  "set_defaults() fills in exactly the missing defaults, never changes an existing value, and is idempotent; construction applies the defaults before the given values, so given (non-blank) values win.",
  "all classes, contents", "all contents", f"{M}:Message.set_defaults", f"{M}:Message.__init__")
# ---- oauth2
p("error_description character check is exact",
  "ResponseMessage.verify() raises ValueError exactly when error_description holds a character outside ASCII letters, space and '!' (given the table checks pass).",
  "all strings", "all strings", f"{O2}:ResponseMessage.verify", f"{O2}:error_chars")
p("RFC 6749 error descriptions are accepted",
  "An error_description consisting of characters in %x20-21 / %x23-5B / %x5D-7E (RFC 6749 5.2, quoted in the code) is accepted by ResponseMessage.verify().",
  "all strings over that range", "all strings", f"{O2}:ResponseMessage.verify", f"{O2}:error_chars")
p("authorization response addressed to another client or from another issuer is rejected",
  "oauth2.AuthorizationResponse.verify(client_id=c, iss=i) never succeeds if the response carries a client_id different from c or an iss different from i; it succeeds if the table checks pass and both agree or are absent.",
  "all responses and arguments", "mix-up attacks choose the values", f"{O2}:AuthorizationResponse.verify")
p("JAR request merge (JWTSecuredAuthorizationRequest)",
  "If verify() returns True and 'request' was present, the resulting message holds exactly the parameters of the decoded request object plus the verified copy; if neither request nor request_uri is present it raises MissingAttribute; a __verified_request supplied from outside is never what is left after success.",
  "all messages, keys and request objects", "attacker chooses message and request object", f"{O2}:JWTSecuredAuthorizationRequest.verify")
p("a verified JAR or PAR request satisfies the authorization request table",
  "If verify() of JWTSecuredAuthorizationRequest / PushedAuthorizationRequest returns True then the required parameters response_type and client_id are present.",
  "all messages, keys and request objects", "attacker chooses input", f"{O2}:JWTSecuredAuthorizationRequest.verify", f"{O2}:PushedAuthorizationRequest.verify")
# ---- oidc
p("ID Token acceptance implies a verified signature",
  "If a response with id_token verifies (signature verification not switched off by verify=False) and the token header says a signing algorithm other than none, then the signature check of the crypto library succeeded on that very token text with a non-empty key list taken from the key jar.",
  "all tokens, key jars, verification arguments and crypto behaviours", "attacker chooses the token; crypto outcomes unbounded", f"{OI}:verify_id_token", f"{M}:Message.from_jwt")
p("unsigned ID Tokens are refused by default",
  "An ID Token with header alg 'none' is accepted only if sigalg='none' or allow_sign_alg_none (other than False) was passed.",
  "all tokens and arguments", "attacker chooses token", f"{OI}:verify_id_token")
p("allowed_sign_alg is enforced on signed ID Tokens",
  "If allowed_sign_alg=a is passed, a signed ID Token whose header alg differs from a is never accepted.",
  "all tokens and arguments", "attacker chooses token", f"{OI}:verify_id_token")
p("signed ID Tokens from unknown issuers are refused",
  "A signed ID Token is accepted only if it has an iss claim and the key jar knows that issuer; missing iss gives MissingRequiredAttribute and an unknown one ValueError.",
  "all tokens and key jars", "attacker chooses token", f"{OI}:verify_id_token")
p("access token and code are bound by at_hash / c_hash",
  "When an oidc.AuthorizationResponse with a signed ID Token verifies and carries an access_token (code), the ID Token has at_hash (c_hash) equal to the left hash of exactly that value under the header algorithm's hash.",
  "all responses, tokens, hash functions", "token-substitution attacks choose values", f"{OI}:verify_id_token", f"{OI}:AuthorizationResponse.verify")
p("IdToken.verify enforces issuer, audience, azp, lifetime and nonce",
  "IdToken.verify(**args) returning True implies: required claims present; iss equals args.iss if given; args.client_id is in aud if given; several audiences imply azp present and in aud; azp equals args.client_id if both are there; exp + skew has not passed; iat is not older than the storage time; nonces agree if both are there. Conversely when all of these hold (and the inherited checks) it returns True.",
  "all claims, arguments and clock values", "all combinations of claims, arguments and clock", f"{OI}:IdToken.verify")
p("an expired or stale ID Token stays rejected",
  "If IdToken.verify rejects a token because of exp or iat age at time t, it rejects it at every later time with the same arguments; enlarging skew never turns acceptance into rejection.",
  "all pairs of times and skews", "relational over all clock values", f"{OI}:IdToken.verify")
p("claims with null value make UserInfo and ID Token verification fail",
  "OpenIDSchema.verify() does not return True for a message having a claim with value None, and neither does IdToken.verify().",
  "all messages", "all messages", f"{OI}:OpenIDSchema.verify", f"{OI}:IdToken.verify")
p("verified-claim slots cannot be forged",
  "After verify() of an oidc response (AccessTokenResponse, AuthorizationResponse) returns True, __verified_id_token is present only if id_token is present and then holds the decoded, verified token; __verified_request and __verified_id_token_hint supplied from outside are gone.",
  "all incoming messages (attacker controlled) and arguments", "attacker chooses the message", f"{OI}:clear_verified_claims", f"{OI}:AccessTokenResponse.verify", f"{OI}:AuthorizationResponse.verify")
p("verified id_token_hint slot of AuthorizationRequest cannot be forged",
  "After oidc.AuthorizationRequest.verify() returns True, the slot verified_id_token_hint is present only if an id_token_hint was present and decoded.",
  "all incoming requests", "attacker chooses the message", f"{OI}:AuthorizationRequest.verify")
p("JsonWebToken time and audience rules",
  "JsonWebToken.verify returns True exactly when (with the inherited checks): exp, if there, is not before now-skew; iat, if there, is not after now+skew; nbf, if there, is not after now-skew; args.aud is among aud if both are there; issuers agree if both are there.",
  "all claims, arguments, clock values", "all combinations", f"{OI}:JsonWebToken.verify")
p("clock skew only widens acceptance of JWTs",
  "If JsonWebToken.verify accepts with skew s it accepts with any larger skew.",
  "all tokens, clocks, skews", "relational", f"{OI}:JsonWebToken.verify")
p("authorization request rules",
  "oidc.AuthorizationRequest.verify() returning True implies for the resulting message: response_type present; if it includes id_token then nonce present and equal to args.nonce if given; scope includes openid; offline_access implies prompt includes consent; prompt none is alone.",
  "all requests, request objects and arguments", "attacker chooses request", f"{OI}:AuthorizationRequest.verify")
p("request object replaces the query parameters",
  "When oidc.AuthorizationRequest.verify() returns True and a request parameter (string) was present, the resulting message holds exactly the request object's parameters and values plus the verified slots; nothing from the unsigned outer request survives unless the request object repeats the parameter.",
  "all requests and request objects", "attacker controls outer request", f"{OI}:AuthorizationRequest.verify")
p("required parameters are present after authorization request verification",
  "After oidc.AuthorizationRequest.verify() returns True, all required parameters (response_type, client_id, scope, redirect_uri) are present in the message.",
  "all requests and request objects", "attacker chooses request object", f"{OI}:AuthorizationRequest.verify")
p("client registration request rules",
  "RegistrationRequest.verify() returning True implies: initiate_login_uri is https; each of the three *_encrypt* alg/enc pairs is both present or both absent, a missing enc having been set to A128CBC-HS256; token_endpoint_auth_signing_alg is not none; nothing else in the message changed; verifying again succeeds and changes nothing.",
  "all registration requests", "all contents", f"{OI}:RegistrationRequest.verify")
p("registration response has both or neither management values",
  "RegistrationResponse.verify() succeeds exactly when the inherited checks pass and registration_client_uri and registration_access_token are both present or both absent.",
  "all responses", "all contents", f"{OI}:RegistrationResponse.verify")
p("provider configuration rules",
  "ProviderConfigurationResponse.verify() returning True implies: openid among scopes_supported if given; issuer scheme is https unless allow_http is given, and the issuer has no query or fragment; RS256 is among id_token_signing_alg_values_supported; token_endpoint present if some response type contains code.",
  "all configurations and issuer strings", "all URLs", f"{OI}:ProviderConfigurationResponse.verify")
p("scope names from the RFC 6749 character set are accepted",
  "check_char_set(s, SCOPE_CHARSET) accepts every s over %x21 / %x23-5B / %x5D-7E and raises NotAllowedValue for all other strings.",
  "all strings", "all strings", f"{OI}:check_char_set", f"{OI}:SCOPE_CHARSET")
p("claims_match implements section 5.5.1 matching",
  "claims_match(v, spec) is True exactly if spec is None, or v equals spec's value, or v is among spec's values, or spec consists of just 'essential'.",
  "all values and claim specifications (any key order)", "order and combination of keys", f"{OI}:claims_match")
p("birthdate format",
  "OpenIDSchema.verify() accepts a birthdate exactly if it is YYYY-MM-DD (a real calendar date), YYYY, or 0000-MM-DD.",
  "all strings", "all strings", f"{OI}:OpenIDSchema.verify")
p("IdToken.pack hashes and stamps",
  "After pack(alg, lifetime) the message has no access_token or code; at_hash/c_hash are the left hashes of what was there; iat is now; exp is now+lifetime if lifetime is non-zero; all other claims are untouched.",
  "all contents, algorithms, lifetimes, clocks", "all contents", f"{OI}:IdToken.pack", f"{OI}:IdToken.val_hash", f"{OI}:IdToken.pack_init")
p("logout token rules",
  "LogoutToken.verify returning True implies: required claims present, no nonce, events is exactly one back-channel-logout member with an empty object, sub or sid present, args.aud in aud if given, args.iss equals iss if given, iat not after now+skew, and header alg equals allowed_sign_alg if that is given and non-empty.",
  "all tokens, arguments, clocks", "attacker chooses token", f"{SE}:LogoutToken.verify")
p("back-channel logout requires a signed logout token",
  "BackChannelLogoutRequest.verify returning True (verify not switched off) implies the logout token's signature was verified with a key from the key jar.",
  "all logout tokens and arguments", "attacker chooses token", f"{SE}:BackChannelLogoutRequest.verify", f"{M}:Message.from_jwt")
p("end session request needs a hint for redirect",
  "EndSessionRequest.verify never returns True for a message with post_logout_redirect_uri but no id_token_hint; if it returns True and id_token_hint was present, __verified_id_token_hint holds the decoded hint, which itself passed verify_id_token.",
  "all requests and arguments", "attacker chooses request", f"{SE}:EndSessionRequest.verify")
p("refreshing keys never lets an unverified token through",
  "Message.from_jwt(verify=True) on a signed JWT never returns normally unless some signature verification call succeeded, including the path where the key jar is refreshed after NoSuitableSigningKeys.",
  "all JWTs, key jars and crypto behaviours", "needs all crypto outcomes", f"{M}:Message.from_jwt")
# ---- time
p("f_quotient / modulo are Euclidean",
  "For integers, f_quotient(a,b) and modulo(a,b) satisfy a = b*q + r with 0 <= r < b (b>0), and the three-argument forms satisfy the XML Schema definitions: modulo(a,lo,hi) in [lo,hi) and a-lo = (hi-lo)*f_quotient(a,lo,hi) + modulo(a,lo,hi) - lo.",
  "all integers", "all integers", f"{TU}:f_quotient", f"{TU}:modulo")
p("parse_duration reads ISO durations",
  "For all non-negative Y,M,D,h,m,s, parse_duration of the string PYYMMDDThhmmss with all components written out returns sign + and exactly those numbers (and sign - with a leading minus); component-wise omissions count as zero.",
  "all component values and omissions", "infinite strings", f"{TU}:parse_duration")
p("add_duration adds the duration",
  "add_duration(t, d) equals the instant of t plus the duration (for day/time durations: plus its number of seconds).",
  "all times and durations", "all pairs", f"{TU}:add_duration")
p("add_duration terminates",
  "The month-normalisation loop of add_duration terminates for every time and every non-negative duration, and the resulting day lies within the resulting month.",
  "all times and durations", "termination is not testable", f"{TU}:add_duration")
p("before/after/later_than order instants",
  "For non-zero integer points, before(p) is true exactly if now < p and after(p) exactly if now >= p; later_than(a,b) is a >= b on integer instants; string points agree with the integers they denote.",
  "all instants", "calendar arithmetic over all instants", f"{TU}:before", f"{TU}:after", f"{TU}:later_than")
p("str_to_time inverts the time format",
  "str_to_time applied to the TIME_FORMAT rendering of an instant returns that instant's UTC fields (years 1..9999), with or without a fraction.",
  "all instants in range", "all instants", f"{TU}:str_to_time", f"{TU}:instant")
# ---- storage
p("file storage behaves like a map within a process",
  "For any sequence of set, get, delete and contains operations of one process on keys that are their own file names, each get returns the value of the last set not followed by a delete, and KeyError otherwise.",
  "all operation histories", "unbounded histories", f"{AF}:AbstractFileSystem.__setitem__", f"{AF}:AbstractFileSystem.__getitem__", f"{AF}:AbstractFileSystem.__delitem__")
p("stored values survive a restart",
  "After a set(k,v) a new instance on the same directory returns, for k, the value converter's deserialization of the trimmed serialization of v, for each key; other keys are unaffected.",
  "all keys, values, histories and restart points", "unbounded histories", f"{AF}:AbstractFileSystem.__init__", f"{AF}:AbstractFileSystem.synch", f"{AF}:AbstractFileSystem._read_info")
p("deleting a key removes it",
  "After del db[k], k in db is False and db[k] raises KeyError.",
  "all keys", "all keys", f"{AF}:AbstractFileSystem.__delitem__")
p("storage operations stay inside the storage directory",
  "No operation on AbstractFileSystem with the default key converter creates, changes or removes a file outside fdir.",
  "all keys (possibly attacker supplied)", "all keys", f"{AF}:AbstractFileSystem.__setitem__", f"{AF}:AbstractFileSystem.__delitem__")
p("a failed or interrupted set does not destroy the old value",
  "If set(k,v) raises or the process dies during it, a later reader sees either the old or the new value of k.",
  "all crash points and failing values", "crash points", f"{AF}:AbstractFileSystem.__setitem__")
p("a reader sees other processes' completed writes",
  "When file modification times strictly increase with each write to a file and each operation runs without interleaving, get(k) in any process returns the (converted) content of the latest completed write of k by any process.",
  "all histories over any number of processes", "interleavings and histories", f"{AF}:AbstractFileSystem.is_changed", f"{AF}:AbstractFileSystem.__getitem__")
p("concurrent sets converge",
  "When two processes set the same key concurrently, afterwards both return the value that is on disc.",
  "all schedules of the steps of set", "schedules", f"{AF}:AbstractFileSystem.__setitem__")
p("a failed refresh is not forgotten",
  "If get(k) raises because the changed file cannot be parsed, later gets do not return the outdated cached value.",
  "all contents and histories", "histories", f"{AF}:AbstractFileSystem.__getitem__", f"{AF}:AbstractFileSystem.is_changed")
p("labels separate name spaces in shared storage",
  "Two labelled views of one file storage never see or change each other's keys provided neither rendered label is a prefix of the other; keys() and items() of a view return exactly its keys without the label.",
  "all labels, keys and histories", "all label/key pairs", f"{AF}:LabeledAbstractFileSystem", f"{EX}:key_label")
p("LabeledDict behaves like a map",
  "Any sequence of set/get/del/contains/keys on a LabeledDict behaves like a map (get of a missing key gives the default), for any label.",
  "all histories and labels", "unbounded histories", f"{EX}:LabeledDict", f"{EX}:SetGetDict")
p("LabeledDict.update stores the given entries",
  "update({k: v, ...}) on a LabeledDict or LabeledAbstractFileSystem stores the entries.",
  "all dictionaries and labels", "all inputs", f"{EX}:LabeledDict.update", f"{AF}:LabeledAbstractFileSystem.update")
p("SQL storage keeps one row per key and returns the last value",
  "For any single-session history of set, update and delete starting from an empty table: at most one row per owner; get returns the last set/updated value or None; delete returns the number of removed rows.",
  "all histories", "unbounded histories", f"{SQ}:AbstractStorageSQLAlchemy")
p("SQL storage membership means key membership",
  "k in storage is true exactly if a row with owner k exists.",
  "all table contents and keys", "all contents", f"{SQ}:AbstractStorageSQLAlchemy.__contains__")
p("SQL delete survives a crash",
  "After delete(k) returns, k stays deleted if the process dies before any further call.",
  "all histories and crash points", "crash points", f"{SQ}:AbstractStorageSQLAlchemy.delete")
p("storage configuration selection",
  "get_storage_conf(conf, typ) returns conf[typ] if non-empty, else the default entry if typ is another type, and raises ConfigurationError if the default itself is asked for and missing; no configuration gives None.",
  "all configurations and types", "all configurations", f"{IN}:get_storage_conf", f"{IN}:init_storage")
p("proper_path yields a relative directory path",
  "proper_path(p) starts with './' and ends with '/', and is idempotent.",
  "all strings", "all strings", f"{PK}:proper_path")
p("modsplit splits importable names",
  "modsplit('m:c') = (m,c) for names with a single colon; without a colon the last dotted component is split off and joining the parts with '.' gives the name back; anything else raises ValueError.",
  "all strings", "all strings", f"{UT}:modsplit")
p("factory returns the named class or None",
  "oauth2.factory(name) returns an instance whose type() is name if oauth2 defines (or imports) such a message class and None otherwise; oidc.factory prefers the oidc class of that name.",
  "all names and arguments", "all names", f"{O2}:factory", f"{OI}:factory")
p("claims requests are type checked recursively",
  "verify_claims_request(instance, base) returns normally exactly if every declared member that is present passes: simple members None or a dict with proper essential/value/values/purpose, nested members recursively, list members element-wise.",
  "all nested claim requests", "unbounded nesting", f"{IA}:verify_claims_request", f"{IA}:_verify_claims_request_value")
p("evidence type determination",
  "Evidence.verify() returns normally exactly for evidence that satisfies the table of one of IdDocument, UtilityBill, QES, which is the one named by type (set if it was missing); anything else raises an exception of the package or ValueError.",
  "all evidence contents", "all contents", f"{IA}:Evidence.verify")
# ---- added while the model grew
p("add_duration ends for every duration text",
  "add_duration(t, text) returns or raises for every text that parse_duration accepts.",
  "all times and duration texts", "non-termination cannot be observed by a test", f"{TU}:add_duration", f"{TU}:parse_duration")
p("times relative to now",
  "in_a_while(...) and a_while_ago(...) render the instant now plus/minus the given delta (whole seconds, years from 1000 on) so that str_to_time reads it back; epoch_in_a_while is the whole second of now plus the delta (at or after the epoch); consecutive shift_time calls add up.",
  "all instants and all integer deltas", "all instants and deltas",
  f"{TU}:in_a_while", f"{TU}:a_while_ago", f"{TU}:epoch_in_a_while", f"{TU}:shift_time", f"{TU}:time_in_a_while")
p("add_base_path makes relative paths absolute",
  "add_base_path(conf, item_paths, base_path) joins base_path to every named entry of conf that is a relative path and leaves absolute paths alone.",
  "all configurations", "all configurations", "src/oidcmsg/__init__.py:add_base_path")
p("the length of a labelled view is the number of its keys",
  "len() of a LabeledAbstractFileSystem is the number of keys stored through it, whatever other views of the directory hold, for every label.",
  "all histories of all views and all labels", "unbounded histories, all labels", "src/oidcmsg/storage/abfile.py:LabeledAbstractFileSystem.__len__")
p("clear empties the storage",
  "After clear() there is no file left in the storage directory.",
  "all directory contents", "all states", "src/oidcmsg/storage/abfile.py:AbstractFileSystem.clear", "src/oidcmsg/storage/abfile.py:AbstractFileSystem.__delitem__")
p("listing and membership reflect deletions of other processes",
  "keys() and 'in' of a process do not show a key that another process has deleted.",
  "all histories of all processes", "unbounded histories", "src/oidcmsg/storage/abfile.py:AbstractFileSystem.synch", "src/oidcmsg/storage/abfile.py:AbstractFileSystem.__contains__")
p("setting one key leaves the others alone",
  "set(k, v) does not change what a reader gets for any other key.",
  "all keys and values, all states", "all pairs of keys", "src/oidcmsg/storage/abfile.py:AbstractFileSystem.__setitem__")
p("any text can be a key",
  "set(k, v) succeeds for every text k that can be encoded and every v that can be serialized.",
  "all keys", "all keys", "src/oidcmsg/storage/abfile.py:AbstractFileSystem.__setitem__", "src/oidcmsg/storage/converter.py:QPKey")
p("iterating a LabeledDict gives its entries",
  "Iterating over a LabeledDict gives the pairs of keys (without label) and values stored in it.",
  "all labels and histories", "all histories", "src/oidcmsg/storage/extension.py:LabeledDict.__iter__")
p("add_issuer marks every storage section",
  "add_issuer(conf, issuer) puts the quoted issuer into every section of the configuration but abstract_storage_cls and changes nothing else.",
  "all configurations and issuers", "all configurations", "src/oidcmsg/context.py:add_issuer")
p("SQL set survives a crash",
  "After set(k, v) returns, get(k) gives v even if the process has died in between, whatever was pending before.",
  "all table states", "all states", "src/oidcmsg/storage/absqlalchemy.py:AbstractStorageSQLAlchemy.set")
p("JSON values survive a restart unchanged",
  "With the JSON converter, after set(k, v) a new instance returns exactly v, for every JSON value and plain key.",
  "all JSON values", "all values", "src/oidcmsg/storage/converter.py:JSON", "src/oidcmsg/storage/abfile.py:AbstractFileSystem")
p("identity assurance time stamps round trip",
  "from_iso8601_2004_time(to_iso8601_2004_time(t)) = t for every whole number of seconds t that a datetime can hold.",
  "all time stamps, all values of the clock", "all instants", f"{IA}:to_iso8601_2004", f"{IA}:from_iso8601_2004", f"{IA}:time_stamp_ser", f"{IA}:time_stamp_deser")
p("identity assurance dates round to the day",
  "from_iso8601_2004_date(to_iso8601_2004_date(t)) is the start of the day of t, for every t but 0 in the years 1000 to 9999.",
  "all time stamps", "all instants", f"{IA}:to_iso8601_2004_date", f"{IA}:from_iso8601_2004_date")
p("messages with time stamps can be passed on",
  "A message with a time stamp that was parsed and verified (a VerificationElement, a Document, a QES) can be serialized again.",
  "all messages with time stamps", "all messages", f"{IA}:time_stamp_ser", f"{IA}:VerificationElement", "src/oidcmsg/message.py:Message.to_dict")
p("ClaimsConstructor holds admissible claims only",
  "After any history of assignments, accepted or refused, a ClaimsConstructor holds of each claim the last assigned value that was None, undeclared, an instance of the declared type or a constructor for the declared class, and to_dict() shows exactly these.",
  "all histories and base classes", "unbounded histories", f"{IA}:ClaimsConstructor.__setitem__", f"{IA}:ClaimsConstructor.to_dict")
p("ClaimsConstructor accepts the documented dictionaries",
  "A ClaimsConstructor accepts for every claim None or a dictionary with the keys essential, value or values.",
  "all claims and dictionaries", "all dictionaries", f"{IA}:ClaimsConstructor.__setitem__", f"{IA}:_correct_value_type")
p("IDAClaimsRequest.verify checks the verified claims",
  "IDAClaimsRequest.verify() returning normally implies that every verified_claims member of the request, at the top or in userinfo or id_token, one object or a list of them, passes verify_claims_request, and requests with proper ones are accepted.",
  "all requests", "all requests", f"{IA}:IDAClaimsRequest.verify", f"{IA}:VerifiedClaimsRequest.verify")

p("reading a message ends",
  "Constructing a message, from_dict, from_json, from_urlencoded and assignment end on every input, for every class, however deep the messages and lists in it are nested.",
  "all classes and inputs", "all inputs", "src/oidcmsg/message.py:Message.from_dict", "src/oidcmsg/message.py:Message.from_json", "src/oidcmsg/message.py:Message._add_value")

p("time stamps with a zone denote one instant",
  "from_iso8601_2004 gives, for the local time of an instant in any time zone (Z, or a sign with hours, minutes and perhaps seconds, with or without colons), that instant.",
  "all instants in the years 1 to 9999, all zone offsets", "all instants and offsets", f"{IA}:from_iso8601_2004", f"{IA}:from_iso8601_2004_time")
p("device access token requests",
  "A device access token request with grant_type, device_code and client_id (RFC 8628 3.4) is accepted with True; one with device_code and without grant_type or client_id is refused with MissingRequiredAttribute; the message is left unchanged.",
  "all requests", "all messages", "src/oidcmsg/oauth2/device_authorization.py:AccessTokenRequest.verify")
p("verify() demands the parameters the specifications require",
  "A message accepted by verify() has, with a non-empty value, every parameter that RFC 6749, 7662, 8414, 8417, 8628, 8693 and the OpenID Connect specifications mark as REQUIRED for it; a message without one is refused.",
  "all messages of all the classes, all keyword arguments and environments", "all messages and all classes", f"{O2}:AuthorizationRequest", "src/oidcmsg/oidc/__init__.py:IdToken", "src/oidcmsg/message.py:Message.verify")

p("messages survive a signed JWT",
  "A message with proper values written by to_jwt() with any key and algorithm and read by from_jwt() with a key jar that has the key has the same parameters with the same values; to_jwt() fails only if the crypto library does.",
  "all classes, messages, algorithms and keys; crypto library with: what is signed is parsed as signed", "all messages", f"{M}:Message.to_jwt", f"{M}:Message.from_jwt")
p("messages survive encryption",
  "A message that is encrypted by to_jwe(), or signed by to_jwt() and then encrypted, and read by from_jwe() or from_jwt() with the key has the same parameters with the same values.",
  "all classes, messages, algorithms and keys; crypto library with: decryption inverts encryption", "all messages", f"{M}:Message.to_jwe", f"{M}:Message.from_jwe", f"{M}:Message.from_jwt")
p("ID Tokens survive to_jwt",
  "An ID Token written by IdToken.to_jwt() with a lifetime and read by from_jwt() has the claims it was made from, iat and exp, and instead of access_token and code their hashes.",
  "all claims, algorithms and lifetimes", "all claims", f"{OI}:IdToken.to_jwt", f"{OI}:IdToken.pack", f"{M}:Message.from_jwt")
p("honest ID Tokens are accepted",
  "An ID Token that an honest provider made for a client with to_jwt(), signed with a key the client has for the provider, is accepted by verify() of every message that carries it, within its lifetime and with the access token and the code it was made for; the verified token holds what the provider put in.",
  "all claims, clients, messages, times, algorithms and keys", "all honest runs", f"{OI}:verify_id_token", f"{OI}:IdToken.verify", f"{OI}:IdToken.pack", f"{OI}:AuthorizationResponse.verify", f"{OI}:AccessTokenResponse.verify")
p("encrypted ID Tokens are accepted",
  "An ID Token that is signed and then encrypted for a client which can decrypt it is accepted by verify() if the signed token alone would be.",
  "all tokens and messages", "all tokens", f"{OI}:verify_id_token", f"{M}:Message.from_jwt")

p("messages are insertion-ordered maps, inherited methods included",
  "Any history of m[k]=v and setdefault (undeclared k), del, update, pop, popitem, clear, in, len, keys, values and items on a message gives the outputs of an insertion-ordered map: a new key goes to the end, an old one keeps its place, popitem takes the oldest entry, clear ends and empties the message.",
  "all operation histories and initial contents", "histories are unbounded", f"{M}:Message.__iter__", f"{M}:Message.__setitem__", f"{M}:Message.__delitem__", f"{M}:Message.__getitem__")
p("setdefault returns what is stored",
  "After x = m.setdefault(k, v), m[k] is x.",
  "all classes, contents, keys and values", "all contents and values", f"{M}:Message.__setitem__", f"{M}:Message._add_value")
p("serialize and deserialize fit together",
  "What m.serialize(method) wrote, deserialize with the same method reads as the same parameters and values; deserialize with an unknown method raises FormatError and leaves the message alone; without keys the methods jwt and jwe raise TypeError.",
  "all classes, proper contents and method names", "all messages", f"{M}:Message.serialize", f"{M}:Message.deserialize")
p("texts that are no messages are refused",
  "from_urlencoded raises FormatError for a non-empty text without any field name=value and leaves the message alone; otherwise, if it accepts, it sets exactly the parameters that have a field; from_json accepts only JSON objects.",
  "all texts, classes and contents", "all texts", f"{M}:Message.from_urlencoded", f"{M}:Message.from_json")
p("error responses are recognized",
  "is_error_message is true of a message read from a query string exactly if the string gives error a value, and of one read from a dictionary or JSON object if it has an error text.",
  "all classes and texts", "all texts", f"{O2}:is_error_message", f"{M}:Message.from_urlencoded", f"{M}:Message.from_dict")

p("authorization requests in order are accepted",
  "An OpenID Connect authorization request with proper values and without request object and hint is accepted by verify() exactly if it has the required parameters with allowed values and keeps the rules on nonce, scope and prompt; it is left as it was.",
  "all requests, keyword arguments and environments", "all requests", f"{OI}:AuthorizationRequest.verify")
p("request objects made by make_openid_request are accepted",
  "The request object that make_openid_request makes of an authorization request that is in order is accepted by verify() of a message that carries it next to parameters of that request; the message then has the parameters of the request and the claims iss, iat, aud, exp, jti that the JWT class added.",
  "all requests, issuers, algorithms, lifetimes; JWT class of the crypto library with: what is packed is parsed as the payload and those claims", "all requests", f"{OI}:make_openid_request", f"{OI}:AuthorizationRequest.verify")

p("contexts return what was put in",
  "After any history of set and get on an OidcContext with storage in memory or in files, get(item) returns what was last set for the item, a message as its dictionary, and for 'seed' the UTF-8 bytes of the text; in memory an item never set is None, in files a KeyError.",
  "all histories, items and values (files: values the converter takes, plain keys, one process)", "histories are unbounded", f"{CX}:OidcContext.set", f"{CX}:OidcContext.get")
p("messages put in a context can be rebuilt after a restart",
  "A message that is set in a context with file storage and the JSON converter is read by another process as a dictionary from which from_dict makes a message with the same parameters and values.",
  "all classes, proper contents and items", "all messages", f"{CX}:OidcContext.set", f"{AF}:AbstractFileSystem.__getitem__", f"{M}:Message.from_dict")
p("a crash takes back exactly the deletions that were not committed",
  "If the process dies after a history of set, update, delete and flush, the table has what it had after the last set, update or flush.",
  "all histories", "crash points, unbounded histories", f"{SQ}:AbstractStorageSQLAlchemy.delete", f"{SQ}:AbstractStorageSQLAlchemy.flush")

p("the order of the parameters does not matter to verify()",
  "verify() of two instances of a class with the same parameters and values in different orders returns the same (or raises the same exception, but for Evidence) and leaves the same parameters and values.",
  "all classes, contents, keyword arguments and environments", "all orders", f"{M}:Message.verify", f"{O2}:AuthorizationResponse.verify", f"{OI}:AuthorizationRequest.verify", f"{OI}:IdToken.verify")
p("the transport does not matter to verify()",
  "A message whose values have their declared kinds gets from verify() the same verdict, and the same parameters and values, after it was written and read as JSON, dictionary or query string; so an authorization request that came as a query string is accepted exactly if the one the client wrote is in order.",
  "all classes, contents of declared kinds, keyword arguments and environments", "all messages", f"{M}:Message.to_json", f"{M}:Message.from_json", f"{M}:Message.to_urlencoded", f"{M}:Message.from_urlencoded", f"{OI}:AuthorizationRequest.verify")

p("issuers that share a configuration do not share data",
  "Contexts of different issuers that are made of one configuration with file storage do not see each other's data: whatever they do in whatever order, each is answered by what it wrote itself.",
  "all configurations, issuers, histories", "histories and interleavings are unbounded", f"{CX}:OidcContext.__init__", f"{CX}:add_issuer", f"{AF}:AbstractFileSystem.__init__")

p("verify() repeated gives the same outcome",
  "What verify() leaves of a message is verified with the same outcome, be it a verdict or an exception, and is not changed any more.",
  "all classes, contents, keyword arguments and environments", "all messages; second calls are not tested", f"{M}:Message.verify", f"{O2}:JWTSecuredAuthorizationRequest.verify", f"{OI}:AuthorizationRequest.verify", f"{OI}:RegistrationRequest.verify")
p("reading untrusted text raises anticipated exceptions only",
  "Reading any dictionary, JSON text or query string as a message of any class succeeds or raises an exception of the library or a ValueError (which JSONDecodeError is), never a TypeError, KeyError, IndexError or AttributeError.",
  "all classes, texts and dictionaries", "all texts", f"{M}:Message.from_urlencoded", f"{M}:Message.from_json", f"{M}:Message.from_dict", f"{M}:Message._add_value", f"{OI}:deserialize_from_one_of")

p("parameters that a class does not declare do not matter to verify()",
  "verify() of two messages of a class that differ only in undeclared parameters returns the same or raises the same exception and leaves the same values in the other parameters; so fields that are added to a query string or members that are added to a JSON object change nothing.",
  "all classes, contents, added parameters, keyword arguments and environments", "all additional parameters", f"{M}:Message.verify", f"{M}:Message.from_urlencoded", f"{M}:Message.from_dict", f"{OI}:AuthorizationResponse.verify", f"{OI}:OpenIDSchema.verify")

p("JSON documents of other implementations are read and written as they are",
  "A JSON document whose members have the types that the class declares is read, and writing the message gives the same document again; objects in parameters of JSON type and single texts for lists are read, too.",
  "all classes, documents and texts", "all documents; tests start from messages of the library", f"{M}:Message.from_json", f"{M}:Message.to_json", f"{M}:Message._add_value", f"{M}:json_serializer")
p("honest logout tokens are accepted",
  "A back-channel logout request with a logout token that has the claims of the specification, is for the client, issued now or before and signed with the provider's key is accepted by verify(), whether the token was made with this library or another one, and its claims are in the verified slot.",
  "all claims, keys, algorithms, clocks; JWS/JWT of the crypto library as an environment", "all tokens", f"{SE}:BackChannelLogoutRequest.verify", f"{SE}:LogoutToken.verify", f"{M}:Message.to_jwt", f"{M}:Message.from_jwt")
p("ID Tokens of other implementations are accepted",
  "A response with an ID Token that another implementation made (claims of the declared types, aud as text or list) and that is for the client, current, signed with the issuer's key and bound to access token and code is accepted by verify(); its claims are in the verified slot.",
  "all claims, messages, keys, algorithms, clocks", "all tokens", f"{OI}:verify_id_token", f"{OI}:IdToken.verify", f"{OI}:AuthorizationResponse.verify", f"{M}:Message.from_jwt")
p("ID Tokens serve as hints of logout requests",
  "A logout request whose id_token_hint is an ID Token that this client got is accepted by verify(), also if the ID Token has expired meanwhile (OpenID Connect RP-Initiated Logout 1.0, section 2).",
  "all claims, keys, algorithms, clocks", "all tokens and times", f"{SE}:EndSessionRequest.verify", f"{OI}:verify_id_token", f"{OI}:IdToken.verify")

p("verify() changes nothing but what it verified",
  "verify() writes or removes only the slots for what it verified, the defaults of the encryption parameters of a registration and, after a request object was checked, the parameters that the object replaces; all other parameters stay, with their values and in their order. A message that verify() refuses keeps its parameters and values.",
  "all classes, contents, keyword arguments and environments, all outcomes", "all messages; tests look at the outcome", f"{M}:Message.verify", f"{OI}:AuthorizationRequest.verify", f"{OI}:RegistrationRequest.verify", f"{O2}:JWTSecuredAuthorizationRequest.verify")

p("verify() raises the exceptions that receivers anticipate",
  "verify() of a message that somebody sent, in whatever encoding, raises exceptions of the library or ValueErrors only, never a TypeError, KeyError or AttributeError.",
  "all classes, contents, keyword arguments and environments", "all messages, also those that no honest sender makes", f"{M}:Message.verify", f"{O2}:ResponseMessage.verify", f"{OI}:OpenIDSchema.verify", f"{OI}:JsonWebToken.verify", f"{OI}:ProviderConfigurationResponse.verify")

p("expectations given to verify() only narrow what is accepted",
  "A message that verify() accepts with expectations of the caller (iss, nonce, client_id, aud, allowed_sign_alg) is accepted without them, too, and one that is accepted without indulgence (verify=False, allow_sign_alg_none, allow_http) is accepted with it; what is left in the message is the same. So no expectation can make verify() accept what it refused.",
  "all classes, contents, keyword arguments and environments whose key jar does not look at these arguments", "pairs of calls on all messages", f"{OI}:verify_id_token", f"{OI}:IdToken.verify", f"{SE}:LogoutToken.verify", f"{O2}:AuthorizationResponse.verify", f"{OI}:AuthorizationRequest.verify")
p("verify() ignores the arguments its class has no use for",
  "The outcome of verify() and what is left in the message depend only on the keyword arguments that the class uses (uses): other arguments do not change it, whatever their values.",
  "all classes, contents, keyword arguments and environments", "pairs of calls on all messages with all arguments", f"{M}:Message.verify", f"{OI}:verify_id_token", f"{O2}:JWTSecuredAuthorizationRequest.verify", f"{SE}:BackChannelLogoutRequest.verify")

p("parameters have the types of the specifications",
  "A JSON document with the parameters that the OAuth2 and OpenID Connect specifications define for a message, each with a value of the type defined there, is read by the class for this message; texts, numbers, truth values and lists come out as such. Whatever document was read, parameters of these types have no value of another type.",
  "all documents; the messages of RFC 6749, 7033, 7519, 7662, 8414, 8417, 8628, 8693, 9101, 9126 and of OpenID Connect Core, Discovery, Registration and Logout", "all values of all parameters; tests use a few documents", f"{M}:Message.from_json", f"{M}:Message.from_dict", f"{OI}:IdToken", f"{OI}:RegistrationRequest", f"{OI}:ProviderConfigurationResponse", f"{O2}:ASConfigurationResponse")
p("values that the specifications name are allowed",
  "verify() never raises NotAllowedValue for a message whose parameters with enumerated values (error codes, display, prompt, grant types, client types) have values that the specifications name.",
  "all messages, keyword arguments and environments", "all combinations of values", f"{M}:Message._type_check", f"{O2}:AuthorizationErrorResponse", f"{OI}:AuthorizationErrorResponse", f"{OI}:AuthorizationRequest")
p("verify() demands no more than the specifications",
  "A message that has the parameters marked as required in its specification, and enumerated parameters with values of the specification, is accepted by verify(), whatever other parameters it has or lacks.",
  "all messages, keyword arguments and environments", "all messages", f"{M}:Message.verify", f"{O2}:ResponseMessage.verify", f"{OI}:JRD", f"{O2}:ASConfigurationResponse", f"{O2}:AccessTokenRequest")
p("absent parameters get the defaults of the specifications",
  "A parameter that a received document does not have is absent from the message or has the default value that the specification gives it.",
  "all classes, all documents", "all classes and all documents", f"{M}:Message.set_defaults", f"{OI}:RegistrationRequest", f"{OI}:ProviderConfigurationResponse", f"{O2}:ASConfigurationResponse", "src/oidcmsg/oauth2/device_authorization.py:AccessTokenRequest")


p("the times at which a message is accepted are an interval",
  "A message that verify() accepts at two times is accepted at every time between them, with the same result. For messages with an ID Token this interval has no beginning, for logout tokens and requests with one no end; for messages without tokens the time makes no difference to verify().",
  "all classes, contents, keyword arguments and environments, all times", "all times", f"{OI}:IdToken.verify", f"{OI}:JsonWebToken.verify", f"{SE}:LogoutToken.verify", f"{SE}:BackChannelLogoutRequest.verify", f"{OI}:verify_id_token")
p("the skew widens what is accepted",
  "A message that verify() accepts with some skew is accepted with a larger one, JWTs with nbf excepted (C40). With an ID Token the skew amounts to a clock that is slow by it, with a logout token to one that is fast by it; for messages without tokens it makes no difference.",
  "all classes, contents, keyword arguments, all times, all skews, environments whose key jar does not look at the skew", "all times and skews", f"{OI}:IdToken.verify", f"{OI}:JsonWebToken.verify", f"{SE}:LogoutToken.verify", f"{OI}:verify_id_token")
p("nothing with an ID Token is accepted for ever",
  "For each ID Token, response with an ID Token and logout request with an ID Token as hint there is a time after which verify() refuses it; for each logout token and request with one there is a time before which verify() refuses it.",
  "all contents, keyword arguments and environments, all times", "unbounded time", f"{OI}:IdToken.verify", f"{OI}:verify_id_token", f"{SE}:EndSessionRequest.verify", f"{SE}:LogoutToken.verify")


p("an honest code flow goes through",
  "The authorization request of a client, the response of the provider, the token request and the token response with an ID Token, each written and sent as the library does it, are read and accepted by verify() on the other side with the arguments a careful client or provider gives, and each side has the parameters and claims the other side sent.",
  "all client ids, redirect URIs, states, nonces, codes, access tokens, issuers, subjects, scopes of words, signing algorithms, keys and lifetimes, all signature schemes whose parties agree", "all texts, with every character that needs quoting", f"{OI}:AuthorizationRequest.verify", f"{OI}:AuthorizationResponse.verify", f"{OI}:AccessTokenResponse.verify", f"{OI}:verify_id_token", f"{O2}:AccessTokenRequest", f"{M}:Message.to_urlencoded", f"{M}:Message.from_urlencoded", f"{M}:Message.to_json", f"{OI}:IdToken.verify")
p("an honest hybrid flow goes through",
  "An authorization response with code, access token and an ID Token made with their hashes, sent as a query, is read and accepted by verify() of a client that checks issuer, client id, nonce and the hashes; the client has the code, the token and the claims, and at_hash and c_hash are the hashes of the two.",
  "all flows as in C139, all hash functions that answer with a text", "all texts and hash functions", f"{OI}:AuthorizationResponse.verify", f"{OI}:IdToken.verify", f"{OI}:IdToken.pack", f"{OI}:verify_id_token")


p("messages that differ are written differently",
  "Two messages of a class with proper values that differ in a parameter have different JSON texts, different query strings and, whatever algorithms and keys, different JWTs; so a value cannot pass itself off as other parameters, and what is signed determines the message.",
  "all classes, all pairs of proper contents, algorithms and keys", "pairs of arbitrary texts", f"{M}:Message.to_json", f"{M}:Message.to_urlencoded", f"{M}:Message.to_jwt")
p("an ID Token is accepted for one issuer, client and nonce",
  "If verify() accepts two messages with the same ID Token, at whatever times, for clients that each give the issuer, client id and nonce they expect, then these are the same for both, and both get the same claims.",
  "all pairs of messages, classes, arguments and times, all environments", "pairs of runs", f"{OI}:IdToken.verify", f"{OI}:verify_id_token", f"{OI}:AuthorizationResponse.verify", f"{OI}:AccessTokenResponse.verify")
p("code and access token cannot be exchanged",
  "If verify() accepts two authorization responses with the same signed ID Token, then their codes have the same hash and their access tokens have the same hash, for the hash function that belongs to the algorithm of the token.",
  "all pairs of responses, arguments and times, all environments", "pairs of runs", f"{OI}:verify_id_token", f"{OI}:AuthorizationResponse.verify")


p("a request object belongs to the client that sends it",
  "If verify() of an OpenID Connect authorization request accepts a signed request object, then its signature was verified with keys of the client named in the request, and the message is that client's afterwards: client_id is not another one.",
  "all requests, request objects, arguments, key jars", "all request objects", f"{OI}:AuthorizationRequest.verify")
p("request objects are signed as demanded",
  "If verify() of an authorization request (OpenID Connect, JAR, pushed) accepts a request object, then it is a JWS whose signature was verified, with the algorithm in the argument alg if that is given.",
  "all requests, request objects, arguments, key jars", "all request objects", f"{OI}:AuthorizationRequest.verify", f"{O2}:JWTSecuredAuthorizationRequest.verify", f"{O2}:PushedAuthorizationRequest.verify", f"{M}:Message.from_jwt")
p("expired request objects are refused",
  "verify() of an authorization request does not accept a request object whose exp has passed.",
  "all requests, request objects, arguments, times", "all times", f"{OI}:AuthorizationRequest.verify")
p("request objects contain no request",
  "After verify() accepted an authorization request with a request object, the message has no parameter request: a request object must not contain one (OpenID Connect Core 6.1), and what is there has not been verified.",
  "all requests, request objects, arguments", "all request objects", f"{OI}:AuthorizationRequest.verify")


p("parameters that belong together come together, those that exclude each other do not",
  "If verify() accepts a message that has a parameter which by the specifications must be accompanied by another (encryption alg and enc, registration uri and access token, actor_token and its type, client_assertion and its type, client_secret and its expiry, access_token and token_type, error_description and error, _claim_names and _claim_sources, post_logout_redirect_uri and id_token_hint), then it has the other; and it does not have both of two that exclude each other (jwks and jwks_uri, request and request_uri, code or access_token and error).",
  "all messages of the classes, all arguments and environments", "all combinations of parameters", f"{OI}:RegistrationRequest.verify", f"{OI}:RegistrationResponse.verify", f"{SE}:EndSessionRequest.verify", f"{O2}:TokenExchangeRequest", f"{OI}:AccessTokenRequest")
p("what the caller expects is there",
  "If verify() of an ID Token, JWT, client assertion, logout token or authorization response accepts and the caller gave the issuer, audience, client id or nonce to expect, then the message has that claim and it is the expected one; leaving the claim out does not do.",
  "all messages of the classes, all expected values, all environments", "all contents", f"{OI}:IdToken.verify", f"{OI}:JsonWebToken.verify", f"{SE}:LogoutToken.verify", f"{O2}:AuthorizationResponse.verify", f"{OI}:AuthorizationResponse.verify")


p("what is read as a point in time is one",
  "str_to_time, and the deserialisers of time stamps and dates of identity assurance, accept exactly the texts that consist of a date of the Gregorian calendar (four-digit year, month and day), a time of day (hours to 23, minutes to 59, seconds to 59, or 61 in str_to_time), and Z, a fraction of a second, or an offset from UTC; and the result is the instant with that date and time.",
  "all texts of ASCII characters", "infinitely many texts; dates that do not exist, missing digits, signs, separators", f"{TU}:str_to_time", f"{IA}:time_stamp_deser", f"{IA}:date_deser", f"{IA}:from_iso8601_2004")

p("JSON texts are read exactly by the grammar",
  "json_deserializer, the JSON converter of the stores and from_json accept a text exactly if it is a JSON text by RFC 8259 (without numbers beyond the range of binary64), and read it as the value the grammar gives it: one value, whatever the white space and escapes; of members with the same name the last counts; a number with fraction or exponent becomes the binary64 number nearest to it. from_json refuses every other text and leaves the message as it was.",
  "all texts, classes and contents", "infinitely many texts; every place for white space, every escape, unpaired surrogates, stray commas", f"{M}:Message.from_json", f"{M}:json_deserializer", f"{CV}:JSON.deserialize")

p("query texts are read exactly as their grammar says",
  "from_urlencoded reads a text as the fields between its ampersands: name and value are what stands before and after the first equals sign, with plus for a space and percent-encoded UTF-8 (digits in either case) decoded; fields without a value count for nothing; the values of a name come together in their order. How a query is written does not matter for the message. A text with escapes that are no UTF-8 shows the replacement character. The texts that urlencode writes have the meaning they were written for.",
  "all texts, classes and contents", "infinitely many texts; every escape of every character, broken and overlong sequences, stray separators", f"{M}:Message.from_urlencoded", f"{M}:Message.to_urlencoded", f"{CV}:QPKey.deserialize")

p("discovery and registration go through",
  "A client that reads the JSON document of a provider whose metadata follow OpenID Connect Discovery (issuer an https URL with host and path only, scopes with openid, RS256, a token endpoint) accepts it and has the metadata; a provider that reads the registration request of a client that keeps the rules accepts it and has the client metadata, with the default encryption methods filled in; the client accepts the response.",
  "all metadata, client metadata, keyword arguments and environments that know the host", "all documents", f"{OI}:ProviderConfigurationResponse.verify", f"{OI}:RegistrationRequest.verify", f"{OI}:RegistrationResponse.verify", f"{M}:Message.to_json", f"{M}:Message.from_json")

p("client assertions authenticate one client to one server for a time",
  "A token request with a client assertion is accepted at the token endpoint, only with the assertion type of RFC 7523; the server reads from the assertion what the client signed, and verify() accepts it exactly if the server is one of its audiences, its issuer is the client the server asks for, and the time is between iat and exp up to the skew.",
  "all clients, audiences, times, skews, keys the server trusts and environments", "all times and audiences", f"{OI}:AuthnToken", f"{OI}:JsonWebToken.verify", f"{OI}:AccessTokenRequest", f"{M}:Message.to_jwt", f"{M}:Message.from_jwt")

p("extra parameters carry over without consequences",
  "add_non_standard(msg1, msg2) gives msg1 the parameters of msg2 that neither class declares, with their values, and changes nothing else; doing it twice is doing it once; verify() of msg1 has the same outcome as before.",
  "all pairs of classes and messages", "all parameter names and values", f"{M}:add_non_standard", f"{M}:Message.extra", f"{M}:Message.__setitem__")
p("a context keeps data and keys where its configuration says",
  "The data of a context with an issuer are in the storage named by the default section, which is told the quoted issuer, or in memory without one; its keys in the storage of the section for the key jar, of the default section if that is missing (then keys and data share one storage), or in memory. An empty section means the default one, except for a context with an issuer, where it is a configuration error.",
  "all configurations and issuers", "all sections", f"{CX}:OidcContext.__init__", f"{CX}:OidcContext._keyjar", f"{CX}:add_issuer", f"{IN}:get_storage_conf", f"{IN}:storage_factory")

p("texts are read as numbers exactly by Python's grammar",
  "A text is read as an integer or a floating point number if and only if it is one: optional white space, a sign, digits with single underscores between them (and for floats a fraction, an exponent or the names of the special values). A text assigned to an integer parameter of a message is stored as that integer, or refused with ValueError and nothing stored. Integers are written so that they are read back.",
  "all texts of ASCII characters, all classes and integer parameters", "all texts", f"{M}:Message._add_value", f"{M}:Message.__setitem__", f"{TU}:parse_duration")
p("durations are read exactly as their grammar says",
  "parse_duration() accepts a text if and only if it is an optional minus, P, and then in this order, as far as the text goes, numbers of years, months and days, a T, and numbers of hours, minutes and seconds, a missing letter counting as zero; only the seconds may have a fraction, no part may be signed with a minus, and text behind the seconds is ignored. It returns exactly these numbers.",
  "all texts of ASCII characters", "all texts", f"{TU}:parse_duration", f"{TU}:D_FORMAT")


p("Serializers and deserializers fit together",
  "Every public serializer for a message class (msg_ser, msg_ser_json, claims_ser, any_ser, link_ser for links) writes a message, as JSON or as a dictionary and at every nesting level, so that every deserializer for that class reads the same parameters back; msg_ser, link_ser and any_ser do so as query texts too. A plain dictionary is written so that it reads as the message from_dict makes of it, a dictionary of texts as the query text with its fields in order. Formats other than urlencoded, json and dict are refused. Limits: a JSON text read as urlencoded can lose its parameters without an error when it contains an equals sign, and any_deser refuses what any_ser makes of a dictionary.",
  "all classes, serializers, matching deserializers, nesting levels and canonical contents",
  "the tests serialize one address, one claims object and one link; the pairs of functions, levels and contents are a product that no list of tests covers",
  M + ":916-956", M + ":995-1014", OI + ":67-164", OI + ":1058-1105")


p("a context's key jar holds its keys under its own name",
  "A context uses a key jar that is given to it as it is. Otherwise the key jar is made from keys, or from jwks if there are no keys, in the storage for keys; the path and storage entries of keys are not passed on. The context's own keys are then found under its entity identifier too, behind what was there, and no other owner's keys change. add_boxes gives every named attribute the storage of its section and leaves all other attributes alone, also when it fails.",
  "all configurations, entity identifiers, key jars that hold keys per owner, and lists of boxes",
  "the tests look at four configurations with one entity identifier and never at add_boxes",
  CX + ":25-76")

p("a class is imported again by its qualified name",
  "Importing the qualified name of a class, or its module and its name with a colon between them, asks the module of that class for that name and gives what the module has there. Classes with the same qualified name have the same module and name. A name that cannot be split, or whose module cannot be imported, gives the error of that step.",
  "all module names and class names without colon, class names without dot, and all ways to import modules and to look up attributes",
  "the tests import a handful of fixed names; qualified_name is never called",
  UT + ":19-28")

p("the deserializers for tokens read claims as JSON and nothing else",
  "What any serializer for messages writes of the claims of a JSON web token, as JSON or as a dictionary and at every level, jwt_deser reads as the same claims, also when it is told that the format is urlencoded. It reads every text as JSON under the names json and urlencoded, so query texts are never decoded; a text under the name dict is an AttributeError; other values are written as JSON first; other formats are refused. idtoken_deser raises TypeError for every value, because it calls from_jwt without a key jar.",
  "all contents of a token, values, texts, names of formats and levels",
  "no test calls jwt_deser or idtoken_deser",
  OI + ":98-100", OI + ":1018-1025", M + ":161-175")


p("verify() of a message with tokens raises the documented exceptions",
  "verify() with a key jar, of a message whose ID Token, ID Token hint or logout token is a text that is not encrypted, has an algorithm in its header if it is a JWS, and claims that are a JSON object with no null as error_description or birthdate and, in a logout token, no events given as a text that is the JSON of something else than an object, raises only exceptions of the library, ValueErrors, UnsupportedAlgorithm and exceptions of the crypto library and the key jar themselves. No other claim of a token, whatever its type, leads to a TypeError, KeyError or AttributeError, and neither does writing the verified token to the log. Each condition is needed.",
  "all messages of all classes except those of identity assurance, all tokens with any claims, all answers of the crypto library and the key jar, all verification arguments of the usual types",
  "claims of unexpected types are hardly tested and every exception would have to be provoked one by one",
  OI + ":267-350", OI + ":568-587", OI + ":766-832", SE + ":56-186", M + ":482-560", M + ":236-320")

p("verify() of a request with a request object raises the documented exceptions",
  "verify() with a key jar, of an authorization request that was received as a query or as JSON and whose request parameter is a text (signed, plain or encrypted) with an algorithm in its header, if it has one, and claims that are a JSON object, raises only exceptions of the library, ValueErrors and exceptions of the crypto library and the key jar themselves; the same is asked of an ID Token hint inside of the request object. No parameter inside of the request object, whatever its type, leads to a TypeError, KeyError or AttributeError, and neither does writing parameters that differ to the log. JWT secured and pushed authorization requests need no condition on a hint or on their other parameters. Each condition is needed.",
  "all authorization requests of OpenID Connect that can be read, all JWT secured and pushed authorization requests, all request objects with any claims, all answers of the crypto library and the key jar, all verification arguments",
  "request objects with parameters of unexpected types are hardly tested, and the messages for the log are made only if parameters differ",
  OI + ":433-513", OI + ":847-848", O2 + ":324-378", M + ":482-560", M + ":236-320")


p("a message that keeps to its specification is accepted by its receiver",
  "A message that has the parameters its specification requires (RFC 6749, 7662, 8417, 8628, 8693, OpenID Connect Core, Registration and Discovery), values of the declared kinds and enumerated values of the specification can be written as a query string, as JSON and as a dictionary without any exception; whoever reads it has exactly the parameters that were sent, and verify() accepts it and leaves it as it is, with any keyword arguments.",
  "all contents of the 25 kinds of messages of the specifications whose requirements are types, required parameters and enumerated values; all keyword arguments of verify()",
  "the tests send a few fixed messages; the exchange of tokens, the introspection, the password grant and the device authorization are tested with one message each or none",
  M + ":86-160", M + ":177-441", M + ":442-480", O2 + ":84-300", OI + ":590-600")


p("a request for verified claims of the right shape is refused with the documented exceptions",
  "verify_claims_request, and verify() of VerificationElementRequest, VerifiedClaimsRequest and IDAClaimsRequest, refuse a request only with exceptions of the library and ValueErrors and leave it as it is, if the request has the right shape: null or objects where claims of a class are asked for, lists of such for evidence, and in a request for a single claim values that are a list and a purpose that is a text. The values, types and further members of the request, and null anywhere, never lead to a TypeError, KeyError or AttributeError. Each condition is needed.",
  "all requests for verified claims of any depth and content, also read from JSON by IDAClaimsRequest.verify()",
  "the tests have a few proper requests and none with parts of unexpected types",
  IA + ":406-470", IA + ":473-512", M + ":906-913")


p("a caller catches refusals with OidcMsgError and ValueError",
  "Every exception class that the library defines for messages is derived from OidcMsgError. A caller who catches OidcMsgError and ValueError catches everything that verify() raises of a message with values of the expected forms and that from_dict() raises of any dictionary; what Message.verify() itself raises is a MessageException.",
  "all classes of exceptions of the library, all messages, dictionaries and verification arguments",
  "tests expect single exceptions in single cases; none looks at the class hierarchy",
  EX + ":4-160", OI + ":51-64", M + ":482-560")


p("the indentation asked of to_json() changes nothing but the looks",
  "Whatever indentation is asked for (none, any number, also zero or a negative one), to_json() of a message raises exactly what it raises without indentation, and its text is read, by json.loads as by from_json() of any class, as the same content as the text without indentation.",
  "all messages of all classes, all indentations that are numbers; all texts, lone surrogates included",
  "no test uses the indentation",
  M + ":443-466")


p("the text of the SQL storage is JSON of its rows",
  "str() of the storage never raises; json.loads of it gives a list of rows of four columns, and exactly the keys that are there, after any history of set, update, delete and flush, have a row, with their last value.",
  "all histories of one session from an empty table whose keys and data are Unicode texts",
  "the tests do not look at the text",
  SQ + ":60-76")



p("a skew that is no number is a TypeError",
  "If an ID Token, a logout token or a JSON Web Token with a time in it is accepted by verify(), then the same call with a skew (for ID Tokens also a nonce_storage_time) that is no number (None, a text, a list, ...) raises TypeError: it neither accepts the token nor reports it as expired or not yet valid. A JSON Web Token without times does not look at the skew.",
  "all tokens, environments, keyword arguments and all values that are no numbers",
  "the tests give numbers only; there is no end to what a caller can give instead",
  OI + ":IdToken.verify", OI + ":JsonWebToken.verify", SE + ":LogoutToken.verify")


p("what was read from JSON is written as JSON that is read as the same",
  "Whatever was read from a JSON text of Unicode characters, with any layout, escapes (also of lone surrogates), repeated members and numbers, can be written as JSON again, with or without indentation, and is read back as exactly the same value. Every finite floating-point number can be written, is read back as that number, and is written with as few digits as any decimal number that is read as it.",
  "all JSON texts of Unicode characters (numbers below the largest floating-point number), all indentations, all finite binary64 numbers", "the texts and numbers are unbounded; errors in the last digit of a number occur for few numbers", f"{M}:454", f"{M}:557", f"{CV}:JSON", f"{M}:898-903")

p("skews may be fractions of a second",
  "With a skew that is not a whole number the same holds as for whole ones (C35, C136, C137), although times are then computed with in floating point: whatever has an ID Token is accepted at every earlier time and with every larger skew, logout tokens at every later time and with every larger skew, also when one skew is whole and the other is not; JSON Web Tokens without nbf are accepted with every larger skew, all of them are accepted without interruption and, once accepted, at least until exp and the skew have passed by exact arithmetic.",
  "all messages, times and skews (whole and fractional) of less than 2^52 seconds, environments whose key jar does not look at the skew", "the order of all rounded sums", f"{OI}:IdToken.verify", f"{OI}:JsonWebToken.verify", f"{SE}:LogoutToken.verify")

p("a key of one process in a shared SQL table",
  "Several processes or threads, each with its session, may work on one table at the same time, their statements in any order. A key that only one of them writes holds there one row with the value last set or updated, or none after delete, as in a dict, whatever the others do to other keys meanwhile; everybody reads this value once set, update or flush has ended the transaction, and until then, after deletions and in the middle of any operation, the others read what they read before; so does everybody if the process dies then. Nobody ever reads a value that was not written under the key. A session that is alone behaves as in C72 and C117.",
  "all numbers of sessions, all operations, all interleavings of their statements", "interleavings of sessions cannot be enumerated and the tests have one session", f"{SQ}:AbstractStorageSQLAlchemy.set", f"{SQ}:AbstractStorageSQLAlchemy.update", f"{SQ}:AbstractStorageSQLAlchemy.delete", f"{SQ}:AbstractStorageSQLAlchemy.get", f"{SQ}:AbstractStorageSQLAlchemy.flush")
p("concurrent sets of one key leave one row",
  "When several processes or threads set the same key of an SQL table, there is one row for it afterwards, with the value that was set last.",
  "all histories of all sessions, all interleavings of their statements", "it depends on the order in which statements of different sessions reach the database", f"{SQ}:AbstractStorageSQLAlchemy.set")

p("add_duration never adds a fraction of a second",
  "Seconds with a fraction are read by parse_duration(), as the floating point number nearest to the text, but add_duration() does not return for them: with unsigned numbers it raises TypeError, or ValueError if the seconds are infinite or not a number, or OverflowError if the year is too large, for every time.",
  "all times, all durations with seconds that only float() accepts", "all texts and times", f"{TU}:add_duration", f"{TU}:parse_duration", f"{TU}:f_quotient")


p("which labels keep views apart",
  "A labelled store keeps the value of a key under two underscores, the label, two underscores and the key; without a label under the key itself. Every key of a view is also a key of another view exactly if the labels are equal, or the first label is the other one followed by one underscore, or by two underscores and anything, or the other view has no label. In all other cases neither rendered label is the start of the other.",
  "all pairs of labels, all keys, values and dictionaries", "all pairs of texts", f"{EX}:LabeledDict", f"{AF}:LabeledAbstractFileSystem")
p("views with different labels see different values",
  "If several views of a file storage have different labels that are not empty, every view sees what was written through it and nothing else.",
  "all labels, all histories of operations through all views", "the tests use one label; it depends on labels and keys together", f"{AF}:LabeledAbstractFileSystem", f"{EX}:key_label")




if __name__ == '__main__':
    out=os.path.join(os.path.dirname(os.path.abspath(__file__)),'..','properties.jsonl')
    with open(out,'w') as f:
        for x in P: f.write(json.dumps(x)+'\n')
    print(len(P),'properties'); 
    for x in P: print(x['id'],x['title'])
