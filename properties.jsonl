{"id": "C01", "title": "JSON round trip", "statement": "For a message whose parameters hold values of their declared kind (see the stated canonical-value predicate: non-empty strings, integers, booleans, non-empty string lists, JSON objects, nested messages), and that has the parameters its class gives defaults for, parsing the text produced by to_json with a fresh instance of the same class gives back exactly the same parameters and values.", "quantifier": "every message class (library or user defined) and every canonical message content, of any size, nesting and Unicode content", "why_tests_cant": "the set of parameter tables, strings and nestings is infinite; tests only use a few ASCII literals", "anchors": ["src/oidcmsg/message.py:Message.to_json", "src/oidcmsg/message.py:Message.from_json", "src/oidcmsg/message.py:Message.from_dict", "src/oidcmsg/message.py:Message.to_dict", "src/oidcmsg/message.py:Message._add_value"]}
{"id": "C02", "title": "urlencoded round trip", "statement": "For a message whose declared parameters hold non-empty strings or non-empty string lists (elements free of blanks) and whose undeclared parameters hold non-empty strings, from_urlencoded of the text produced by to_urlencoded gives back exactly the same parameters and values, and '&', '=', '+', '%', spaces and non-ASCII characters inside keys or values never leak into other parameters.", "quantifier": "every message class, every canonical content, all Unicode strings without surrogates", "why_tests_cant": "injection bugs hide in character combinations no finite test list covers", "anchors": ["src/oidcmsg/message.py:Message.to_urlencoded", "src/oidcmsg/message.py:Message.from_urlencoded"]}
{"id": "C03", "title": "dict round trip", "statement": "from_dict(to_dict(m)) on a fresh instance of the same class reproduces m for canonical content (as in the JSON round trip).", "quantifier": "every message class and canonical content of any nesting", "why_tests_cant": "infinite space of nested values", "anchors": ["src/oidcmsg/message.py:Message.to_dict", "src/oidcmsg/message.py:Message.from_dict"]}
{"id": "C04", "title": "verify accepts exactly the messages that satisfy the parameter table", "statement": "Message.verify() returns True if and only if each required parameter is present with a non-empty value (booleans may be False) and every present non-empty parameter with a restricted value set has only allowed values; otherwise it raises MissingRequiredAttribute or NotAllowedValue, and it never changes the message.", "quantifier": "every parameter table, allowed-value table and message content", "why_tests_cant": "quantifies over all tables (users define subclasses) and all contents", "anchors": ["src/oidcmsg/message.py:Message.verify", "src/oidcmsg/message.py:Message._type_check"]}
{"id": "C05", "title": "declared types hold after construction", "statement": "After Message(**kw), from_dict or from_json succeeds, or after m[k]=v, every declared string, integer, boolean or string-list parameter that has a value holds a value of that type (integers given as text are converted; wrong types raise).", "quantifier": "every parameter table and every input dictionary of Python/JSON values", "why_tests_cant": "the input type space is infinite and coercion rules interact", "anchors": ["src/oidcmsg/message.py:Message._add_value", "src/oidcmsg/message.py:Message.from_dict", "src/oidcmsg/message.py:Message.__setitem__"]}
{"id": "C06", "title": "declared types hold after urlencoded parsing", "statement": "After from_urlencoded succeeds every declared parameter with a value holds a value of its declared type.", "quantifier": "every parameter table and every query string", "why_tests_cant": "needs all query strings; tests only look at string parameters", "anchors": ["src/oidcmsg/message.py:Message.from_urlencoded"]}
{"id": "C07", "title": "duplicated single-valued parameters are rejected", "statement": "If a query string gives two or more non-blank values for a declared single-valued parameter, from_urlencoded raises: TooManyValues, or the exception of another faulty parameter met before; it never silently picks one.", "quantifier": "every query string, position and spelling (percent-encoding) of the duplicates", "why_tests_cant": "parameter-pollution needs every placement and encoding", "anchors": ["src/oidcmsg/message.py:Message.from_urlencoded"]}
{"id": "C08", "title": "blank values are never stored", "statement": "from_dict, from_json and construction never store an empty string or a list holding just an empty string.", "quantifier": "every input dictionary and parameter table", "why_tests_cant": "all inputs", "anchors": ["src/oidcmsg/message.py:Message.from_dict"]}
{"id": "C09", "title": "parameters are processed independently", "statement": "The value stored under a key by from_dict depends only on the input given for that key (and the parameter table): adding, removing or reordering other entries does not change it, and entries for keys not in the input keep their old value.", "quantifier": "every pair of inputs agreeing on one key, every prior content", "why_tests_cant": "two-run (relational) property over all inputs", "anchors": ["src/oidcmsg/message.py:Message.from_dict", "src/oidcmsg/message.py:Message._add_value"]}
{"id": "C10", "title": "undeclared parameters are preserved verbatim", "statement": "Parameters the class does not declare (and which are not language-tagged variants of declared ones) are stored unchanged by from_dict/construction and are exactly what extra() reports.", "quantifier": "every class without '*' entry and every input", "why_tests_cant": "all key names and values", "anchors": ["src/oidcmsg/message.py:Message.from_dict", "src/oidcmsg/message.py:Message.extra"]}
{"id": "C11", "title": "to_urlencoded refuses incomplete messages", "statement": "Unless lax is set, to_urlencoded raises MissingRequiredAttribute exactly when a required parameter is missing from the message.", "quantifier": "every class and message content", "why_tests_cant": "all tables and contents", "anchors": ["src/oidcmsg/message.py:Message.to_urlencoded"]}
{"id": "C12", "title": "request() only appends to the location", "statement": "request(location) returns the location followed by one separator and the urlencoded message; '?' is used exactly when the location has no '?', and the query component of the result (after the first '?') decodes to the old query parameters followed by the message parameters when the location has no fragment.", "quantifier": "every location string and message", "why_tests_cant": "all URLs and messages", "anchors": ["src/oidcmsg/message.py:Message.request"]}
{"id": "C13", "title": "merging a request object (strict / lax / whitelist)", "statement": "After merge(ro,'strict') the request holds exactly the parameters and values of ro; after 'lax' ro's values win and all other parameters survive; after 'whitelist' with a non-empty list ro's values win and only whitelisted others survive.", "quantifier": "every request content, request object content, treatment and whitelist", "why_tests_cant": "all combinations of overlapping parameters", "anchors": ["src/oidcmsg/oauth2/__init__.py:AuthorizationRequest.merge", "src/oidcmsg/message.py:Message.update"]}
{"id": "C14", "title": "weed/extra/rm_blanks partition the message", "statement": "weed() keeps exactly the declared parameters with unchanged values, extra() returns exactly the rest, only_extras() is true exactly when nothing declared is present, rm_blanks() removes exactly the parameters with empty values; weed and rm_blanks are idempotent.", "quantifier": "every class and message content", "why_tests_cant": "all contents", "anchors": ["src/oidcmsg/message.py:Message.weed", "src/oidcmsg/message.py:Message.extra", "src/oidcmsg/message.py:Message.only_extras", "src/oidcmsg/message.py:Message.rm_blanks"]}
{"id": "C15", "title": "message equality is an equivalence", "statement": "== between messages is reflexive, symmetric and transitive, ignores parameter order, and distinguishes messages with a different value for some parameter.", "quantifier": "all messages", "why_tests_cant": "relational law over all values", "anchors": ["src/oidcmsg/message.py:Message.__eq__"]}
{"id": "C16", "title": "messages behave like insertion-ordered maps", "statement": "Any sequence of m[k]=v (undeclared k), del m[k], update, get, in, len, keys on a message behaves like the same sequence on an abstract map; a key never appears twice.", "quantifier": "all operation histories", "why_tests_cant": "histories are unbounded", "anchors": ["src/oidcmsg/message.py:Message.__setitem__", "src/oidcmsg/message.py:Message.__delitem__", "src/oidcmsg/message.py:Message.update", "src/oidcmsg/message.py:Message.__len__"]}
{"id": "C17", "title": "instances do not share state through class defaults", "statement": "Changing a list value of one message in place never changes another message of the same class created later or earlier.", "quantifier": "all classes with defaults, all histories of creating and mutating instances", "why_tests_cant": "requires reasoning about aliasing over histories", "anchors": ["src/oidcmsg/message.py:Message.__init__", "src/oidcmsg/oidc/__init__.py:RegistrationRequest.c_default"]}
{"id": "C18", "title": "a failed from_dict leaves the message unchanged", "statement": "If from_dict raises, the message holds what it held before the call.", "quantifier": "every message content and faulty input", "why_tests_cant": "every failure point", "anchors": ["src/oidcmsg/message.py:Message.from_dict"]}
{"id": "C19", "title": "JSON text codec", "statement": "The JSON text written for any JSON value (null, booleans, integers, finite floating-point numbers, strings, arrays, objects with distinct keys) is pure printable ASCII, and parsing it gives back exactly that value.", "quantifier": "all JSON values with any finite binary64 numbers, all Unicode strings without surrogates", "why_tests_cant": "infinite recursive value space", "anchors": ["src/oidcmsg/message.py:json_serializer", "src/oidcmsg/message.py:json_deserializer", "src/oidcmsg/storage/converter.py:JSON"]}
{"id": "C20", "title": "percent-encoding codec for storage keys and query strings", "statement": "QPKey.deserialize(QPKey.serialize(k)) = k for each key, the serialized key contains only letters, digits and _.-~%+ , and different keys never share a serialized form.", "quantifier": "all Unicode strings without surrogates", "why_tests_cant": "infinite string space", "anchors": ["src/oidcmsg/storage/converter.py:QPKey"]}
{"id": "C21", "title": "list (de)serializers are inverse on blank-free lists", "statement": "Joining a non-empty list of strings without blanks and splitting the result returns the list; if an element contains a blank the space-separated form does not return the same list.", "quantifier": "all string lists", "why_tests_cant": "all lists", "anchors": ["src/oidcmsg/message.py:list_serializer", "src/oidcmsg/message.py:list_deserializer", "src/oidcmsg/message.py:sp_sep_list_serializer", "src/oidcmsg/message.py:sp_sep_list_deserializer"]}
{"id": "C22", "title": "language-tagged parameters follow their base parameter", "statement": "from_dict/from_urlencoded treat 'name#tag' exactly like 'name' (same type checks and conversion) and store it under 'name#tag'.", "quantifier": "all parameter names, tags and values not themselves declared", "why_tests_cant": "all tags", "anchors": ["src/oidcmsg/message.py:Message.from_dict", "src/oidcmsg/message.py:Message.from_urlencoded"]}
{"id": "C23", "title": "set_defaults never overrides", "statement": "set_defaults() fills in exactly the missing defaults, never changes an existing value, and is idempotent; construction applies the defaults before the given values, so given (non-blank) values win.", "quantifier": "all classes, contents", "why_tests_cant": "all contents", "anchors": ["src/oidcmsg/message.py:Message.set_defaults", "src/oidcmsg/message.py:Message.__init__"]}
{"id": "C24", "title": "error_description character check is exact", "statement": "ResponseMessage.verify() raises ValueError exactly when error_description holds a character outside ASCII letters, space and '!' (given the table checks pass).", "quantifier": "all strings", "why_tests_cant": "all strings", "anchors": ["src/oidcmsg/oauth2/__init__.py:ResponseMessage.verify", "src/oidcmsg/oauth2/__init__.py:error_chars"]}
{"id": "C25", "title": "RFC 6749 error descriptions are accepted", "statement": "An error_description consisting of characters in %x20-21 / %x23-5B / %x5D-7E (RFC 6749 5.2, quoted in the code) is accepted by ResponseMessage.verify().", "quantifier": "all strings over that range", "why_tests_cant": "all strings", "anchors": ["src/oidcmsg/oauth2/__init__.py:ResponseMessage.verify", "src/oidcmsg/oauth2/__init__.py:error_chars"]}
{"id": "C26", "title": "authorization response addressed to another client or from another issuer is rejected", "statement": "oauth2.AuthorizationResponse.verify(client_id=c, iss=i) never succeeds if the response carries a client_id different from c or an iss different from i; it succeeds if the table checks pass and both agree or are absent.", "quantifier": "all responses and arguments", "why_tests_cant": "mix-up attacks choose the values", "anchors": ["src/oidcmsg/oauth2/__init__.py:AuthorizationResponse.verify"]}
{"id": "C27", "title": "JAR request merge (JWTSecuredAuthorizationRequest)", "statement": "If verify() returns True and 'request' was present, the resulting message holds exactly the parameters of the decoded request object plus the verified copy; if neither request nor request_uri is present it raises MissingAttribute; a __verified_request supplied from outside is never what is left after success.", "quantifier": "all messages, keys and request objects", "why_tests_cant": "attacker chooses message and request object", "anchors": ["src/oidcmsg/oauth2/__init__.py:JWTSecuredAuthorizationRequest.verify"]}
{"id": "C28", "title": "a verified JAR or PAR request satisfies the authorization request table", "statement": "If verify() of JWTSecuredAuthorizationRequest / PushedAuthorizationRequest returns True then the required parameters response_type and client_id are present.", "quantifier": "all messages, keys and request objects", "why_tests_cant": "attacker chooses input", "anchors": ["src/oidcmsg/oauth2/__init__.py:JWTSecuredAuthorizationRequest.verify", "src/oidcmsg/oauth2/__init__.py:PushedAuthorizationRequest.verify"]}
{"id": "C29", "title": "ID Token acceptance implies a verified signature", "statement": "If a response with id_token verifies (signature verification not switched off by verify=False) and the token header says a signing algorithm other than none, then the signature check of the crypto library succeeded on that very token text with a non-empty key list taken from the key jar.", "quantifier": "all tokens, key jars, verification arguments and crypto behaviours", "why_tests_cant": "attacker chooses the token; crypto outcomes unbounded", "anchors": ["src/oidcmsg/oidc/__init__.py:verify_id_token", "src/oidcmsg/message.py:Message.from_jwt"]}
{"id": "C30", "title": "unsigned ID Tokens are refused by default", "statement": "An ID Token with header alg 'none' is accepted only if sigalg='none' or allow_sign_alg_none (other than False) was passed.", "quantifier": "all tokens and arguments", "why_tests_cant": "attacker chooses token", "anchors": ["src/oidcmsg/oidc/__init__.py:verify_id_token"]}
{"id": "C31", "title": "allowed_sign_alg is enforced on signed ID Tokens", "statement": "If allowed_sign_alg=a is passed, a signed ID Token whose header alg differs from a is never accepted.", "quantifier": "all tokens and arguments", "why_tests_cant": "attacker chooses token", "anchors": ["src/oidcmsg/oidc/__init__.py:verify_id_token"]}
{"id": "C32", "title": "signed ID Tokens from unknown issuers are refused", "statement": "A signed ID Token is accepted only if it has an iss claim and the key jar knows that issuer; missing iss gives MissingRequiredAttribute and an unknown one ValueError.", "quantifier": "all tokens and key jars", "why_tests_cant": "attacker chooses token", "anchors": ["src/oidcmsg/oidc/__init__.py:verify_id_token"]}
{"id": "C33", "title": "access token and code are bound by at_hash / c_hash", "statement": "When an oidc.AuthorizationResponse with a signed ID Token verifies and carries an access_token (code), the ID Token has at_hash (c_hash) equal to the left hash of exactly that value under the header algorithm's hash.", "quantifier": "all responses, tokens, hash functions", "why_tests_cant": "token-substitution attacks choose values", "anchors": ["src/oidcmsg/oidc/__init__.py:verify_id_token", "src/oidcmsg/oidc/__init__.py:AuthorizationResponse.verify"]}
{"id": "C34", "title": "IdToken.verify enforces issuer, audience, azp, lifetime and nonce", "statement": "IdToken.verify(**args) returning True implies: required claims present; iss equals args.iss if given; args.client_id is in aud if given; several audiences imply azp present and in aud; azp equals args.client_id if both are there; exp + skew has not passed; iat is not older than the storage time; nonces agree if both are there. Conversely when all of these hold (and the inherited checks) it returns True.", "quantifier": "all claims, arguments and clock values", "why_tests_cant": "all combinations of claims, arguments and clock", "anchors": ["src/oidcmsg/oidc/__init__.py:IdToken.verify"]}
{"id": "C35", "title": "an expired or stale ID Token stays rejected", "statement": "If IdToken.verify rejects a token because of exp or iat age at time t, it rejects it at every later time with the same arguments; enlarging skew never turns acceptance into rejection.", "quantifier": "all pairs of times and skews", "why_tests_cant": "relational over all clock values", "anchors": ["src/oidcmsg/oidc/__init__.py:IdToken.verify"]}
{"id": "C36", "title": "claims with null value make UserInfo and ID Token verification fail", "statement": "OpenIDSchema.verify() does not return True for a message having a claim with value None, and neither does IdToken.verify().", "quantifier": "all messages", "why_tests_cant": "all messages", "anchors": ["src/oidcmsg/oidc/__init__.py:OpenIDSchema.verify", "src/oidcmsg/oidc/__init__.py:IdToken.verify"]}
{"id": "C37", "title": "verified-claim slots cannot be forged", "statement": "After verify() of an oidc response (AccessTokenResponse, AuthorizationResponse) returns True, __verified_id_token is present only if id_token is present and then holds the decoded, verified token; __verified_request and __verified_id_token_hint supplied from outside are gone.", "quantifier": "all incoming messages (attacker controlled) and arguments", "why_tests_cant": "attacker chooses the message", "anchors": ["src/oidcmsg/oidc/__init__.py:clear_verified_claims", "src/oidcmsg/oidc/__init__.py:AccessTokenResponse.verify", "src/oidcmsg/oidc/__init__.py:AuthorizationResponse.verify"]}
{"id": "C38", "title": "verified id_token_hint slot of AuthorizationRequest cannot be forged", "statement": "After oidc.AuthorizationRequest.verify() returns True, the slot verified_id_token_hint is present only if an id_token_hint was present and decoded.", "quantifier": "all incoming requests", "why_tests_cant": "attacker chooses the message", "anchors": ["src/oidcmsg/oidc/__init__.py:AuthorizationRequest.verify"]}
{"id": "C39", "title": "JsonWebToken time and audience rules", "statement": "JsonWebToken.verify returns True exactly when (with the inherited checks): exp, if there, is not before now-skew; iat, if there, is not after now+skew; nbf, if there, is not after now-skew; args.aud is among aud if both are there; issuers agree if both are there.", "quantifier": "all claims, arguments, clock values", "why_tests_cant": "all combinations", "anchors": ["src/oidcmsg/oidc/__init__.py:JsonWebToken.verify"]}
{"id": "C40", "title": "clock skew only widens acceptance of JWTs", "statement": "If JsonWebToken.verify accepts with skew s it accepts with any larger skew.", "quantifier": "all tokens, clocks, skews", "why_tests_cant": "relational", "anchors": ["src/oidcmsg/oidc/__init__.py:JsonWebToken.verify"]}
{"id": "C41", "title": "authorization request rules", "statement": "oidc.AuthorizationRequest.verify() returning True implies for the resulting message: response_type present; if it includes id_token then nonce present and equal to args.nonce if given; scope includes openid; offline_access implies prompt includes consent; prompt none is alone.", "quantifier": "all requests, request objects and arguments", "why_tests_cant": "attacker chooses request", "anchors": ["src/oidcmsg/oidc/__init__.py:AuthorizationRequest.verify"]}
{"id": "C42", "title": "request object replaces the query parameters", "statement": "When oidc.AuthorizationRequest.verify() returns True and a request parameter (string) was present, the resulting message holds exactly the request object's parameters and values plus the verified slots; nothing from the unsigned outer request survives unless the request object repeats the parameter.", "quantifier": "all requests and request objects", "why_tests_cant": "attacker controls outer request", "anchors": ["src/oidcmsg/oidc/__init__.py:AuthorizationRequest.verify"]}
{"id": "C43", "title": "required parameters are present after authorization request verification", "statement": "After oidc.AuthorizationRequest.verify() returns True, all required parameters (response_type, client_id, scope, redirect_uri) are present in the message.", "quantifier": "all requests and request objects", "why_tests_cant": "attacker chooses request object", "anchors": ["src/oidcmsg/oidc/__init__.py:AuthorizationRequest.verify"]}
{"id": "C44", "title": "client registration request rules", "statement": "RegistrationRequest.verify() returning True implies: initiate_login_uri is https; each of the three *_encrypt* alg/enc pairs is both present or both absent, a missing enc having been set to A128CBC-HS256; token_endpoint_auth_signing_alg is not none; nothing else in the message changed; verifying again succeeds and changes nothing.", "quantifier": "all registration requests", "why_tests_cant": "all contents", "anchors": ["src/oidcmsg/oidc/__init__.py:RegistrationRequest.verify"]}
{"id": "C45", "title": "registration response has both or neither management values", "statement": "RegistrationResponse.verify() succeeds exactly when the inherited checks pass and registration_client_uri and registration_access_token are both present or both absent.", "quantifier": "all responses", "why_tests_cant": "all contents", "anchors": ["src/oidcmsg/oidc/__init__.py:RegistrationResponse.verify"]}
{"id": "C46", "title": "provider configuration rules", "statement": "ProviderConfigurationResponse.verify() returning True implies: openid among scopes_supported if given; issuer scheme is https unless allow_http is given, and the issuer has no query or fragment; RS256 is among id_token_signing_alg_values_supported; token_endpoint present if some response type contains code.", "quantifier": "all configurations and issuer strings", "why_tests_cant": "all URLs", "anchors": ["src/oidcmsg/oidc/__init__.py:ProviderConfigurationResponse.verify"]}
{"id": "C47", "title": "scope names from the RFC 6749 character set are accepted", "statement": "check_char_set(s, SCOPE_CHARSET) accepts every s over %x21 / %x23-5B / %x5D-7E and raises NotAllowedValue for all other strings.", "quantifier": "all strings", "why_tests_cant": "all strings", "anchors": ["src/oidcmsg/oidc/__init__.py:check_char_set", "src/oidcmsg/oidc/__init__.py:SCOPE_CHARSET"]}
{"id": "C48", "title": "claims_match implements section 5.5.1 matching", "statement": "claims_match(v, spec) is True exactly if spec is None, or v equals spec's value, or v is among spec's values, or spec consists of just 'essential'.", "quantifier": "all values and claim specifications (any key order)", "why_tests_cant": "order and combination of keys", "anchors": ["src/oidcmsg/oidc/__init__.py:claims_match"]}
{"id": "C49", "title": "birthdate format", "statement": "OpenIDSchema.verify() accepts a birthdate exactly if it is YYYY-MM-DD (a real calendar date), YYYY, or 0000-MM-DD.", "quantifier": "all strings", "why_tests_cant": "all strings", "anchors": ["src/oidcmsg/oidc/__init__.py:OpenIDSchema.verify"]}
{"id": "C50", "title": "IdToken.pack hashes and stamps", "statement": "After pack(alg, lifetime) the message has no access_token or code; at_hash/c_hash are the left hashes of what was there; iat is now; exp is now+lifetime if lifetime is non-zero; all other claims are untouched.", "quantifier": "all contents, algorithms, lifetimes, clocks", "why_tests_cant": "all contents", "anchors": ["src/oidcmsg/oidc/__init__.py:IdToken.pack", "src/oidcmsg/oidc/__init__.py:IdToken.val_hash", "src/oidcmsg/oidc/__init__.py:IdToken.pack_init"]}
{"id": "C51", "title": "logout token rules", "statement": "LogoutToken.verify returning True implies: required claims present, no nonce, events is exactly one back-channel-logout member with an empty object, sub or sid present, args.aud in aud if given, args.iss equals iss if given, iat not after now+skew, and header alg equals allowed_sign_alg if that is given and non-empty.", "quantifier": "all tokens, arguments, clocks", "why_tests_cant": "attacker chooses token", "anchors": ["src/oidcmsg/oidc/session.py:LogoutToken.verify"]}
{"id": "C52", "title": "back-channel logout requires a signed logout token", "statement": "BackChannelLogoutRequest.verify returning True (verify not switched off) implies the logout token's signature was verified with a key from the key jar.", "quantifier": "all logout tokens and arguments", "why_tests_cant": "attacker chooses token", "anchors": ["src/oidcmsg/oidc/session.py:BackChannelLogoutRequest.verify", "src/oidcmsg/message.py:Message.from_jwt"]}
{"id": "C53", "title": "end session request needs a hint for redirect", "statement": "EndSessionRequest.verify never returns True for a message with post_logout_redirect_uri but no id_token_hint; if it returns True and id_token_hint was present, __verified_id_token_hint holds the decoded hint, which itself passed verify_id_token.", "quantifier": "all requests and arguments", "why_tests_cant": "attacker chooses request", "anchors": ["src/oidcmsg/oidc/session.py:EndSessionRequest.verify"]}
{"id": "C54", "title": "refreshing keys never lets an unverified token through", "statement": "Message.from_jwt(verify=True) on a signed JWT never returns normally unless some signature verification call succeeded, including the path where the key jar is refreshed after NoSuitableSigningKeys.", "quantifier": "all JWTs, key jars and crypto behaviours", "why_tests_cant": "needs all crypto outcomes", "anchors": ["src/oidcmsg/message.py:Message.from_jwt"]}
{"id": "C55", "title": "f_quotient / modulo are Euclidean", "statement": "For integers, f_quotient(a,b) and modulo(a,b) satisfy a = b*q + r with 0 <= r < b (b>0), and the three-argument forms satisfy the XML Schema definitions: modulo(a,lo,hi) in [lo,hi) and a-lo = (hi-lo)*f_quotient(a,lo,hi) + modulo(a,lo,hi) - lo.", "quantifier": "all integers", "why_tests_cant": "all integers", "anchors": ["src/oidcmsg/time_util.py:f_quotient", "src/oidcmsg/time_util.py:modulo"]}
{"id": "C56", "title": "parse_duration reads ISO durations", "statement": "For all non-negative Y,M,D,h,m,s, parse_duration of the string PYYMMDDThhmmss with all components written out returns sign + and exactly those numbers (and sign - with a leading minus); component-wise omissions count as zero.", "quantifier": "all component values and omissions", "why_tests_cant": "infinite strings", "anchors": ["src/oidcmsg/time_util.py:parse_duration"]}
{"id": "C57", "title": "add_duration adds the duration", "statement": "add_duration(t, d) equals the instant of t plus the duration (for day/time durations: plus its number of seconds).", "quantifier": "all times and durations", "why_tests_cant": "all pairs", "anchors": ["src/oidcmsg/time_util.py:add_duration"]}
{"id": "C58", "title": "add_duration terminates", "statement": "The month-normalisation loop of add_duration terminates for every time and every non-negative duration, and the resulting day lies within the resulting month.", "quantifier": "all times and durations", "why_tests_cant": "termination is not testable", "anchors": ["src/oidcmsg/time_util.py:add_duration"]}
{"id": "C59", "title": "before/after/later_than order instants", "statement": "For non-zero integer points, before(p) is true exactly if now < p and after(p) exactly if now >= p; later_than(a,b) is a >= b on integer instants; string points agree with the integers they denote.", "quantifier": "all instants", "why_tests_cant": "calendar arithmetic over all instants", "anchors": ["src/oidcmsg/time_util.py:before", "src/oidcmsg/time_util.py:after", "src/oidcmsg/time_util.py:later_than"]}
{"id": "C60", "title": "str_to_time inverts the time format", "statement": "str_to_time applied to the TIME_FORMAT rendering of an instant returns that instant's UTC fields (years 1..9999), with or without a fraction.", "quantifier": "all instants in range", "why_tests_cant": "all instants", "anchors": ["src/oidcmsg/time_util.py:str_to_time", "src/oidcmsg/time_util.py:instant"]}
{"id": "C61", "title": "file storage behaves like a map within a process", "statement": "For any sequence of set, get, delete and contains operations of one process on keys that are their own file names, each get returns the value of the last set not followed by a delete, and KeyError otherwise.", "quantifier": "all operation histories", "why_tests_cant": "unbounded histories", "anchors": ["src/oidcmsg/storage/abfile.py:AbstractFileSystem.__setitem__", "src/oidcmsg/storage/abfile.py:AbstractFileSystem.__getitem__", "src/oidcmsg/storage/abfile.py:AbstractFileSystem.__delitem__"]}
{"id": "C62", "title": "stored values survive a restart", "statement": "After a set(k,v) a new instance on the same directory returns, for k, the value converter's deserialization of the trimmed serialization of v, for each key; other keys are unaffected.", "quantifier": "all keys, values, histories and restart points", "why_tests_cant": "unbounded histories", "anchors": ["src/oidcmsg/storage/abfile.py:AbstractFileSystem.__init__", "src/oidcmsg/storage/abfile.py:AbstractFileSystem.synch", "src/oidcmsg/storage/abfile.py:AbstractFileSystem._read_info"]}
{"id": "C63", "title": "deleting a key removes it", "statement": "After del db[k], k in db is False and db[k] raises KeyError.", "quantifier": "all keys", "why_tests_cant": "all keys", "anchors": ["src/oidcmsg/storage/abfile.py:AbstractFileSystem.__delitem__"]}
{"id": "C64", "title": "storage operations stay inside the storage directory", "statement": "No operation on AbstractFileSystem with the default key converter creates, changes or removes a file outside fdir.", "quantifier": "all keys (possibly attacker supplied)", "why_tests_cant": "all keys", "anchors": ["src/oidcmsg/storage/abfile.py:AbstractFileSystem.__setitem__", "src/oidcmsg/storage/abfile.py:AbstractFileSystem.__delitem__"]}
{"id": "C65", "title": "a failed or interrupted set does not destroy the old value", "statement": "If set(k,v) raises or the process dies during it, a later reader sees either the old or the new value of k.", "quantifier": "all crash points and failing values", "why_tests_cant": "crash points", "anchors": ["src/oidcmsg/storage/abfile.py:AbstractFileSystem.__setitem__"]}
{"id": "C66", "title": "a reader sees other processes' completed writes", "statement": "When file modification times strictly increase with each write to a file and each operation runs without interleaving, get(k) in any process returns the (converted) content of the latest completed write of k by any process.", "quantifier": "all histories over any number of processes", "why_tests_cant": "interleavings and histories", "anchors": ["src/oidcmsg/storage/abfile.py:AbstractFileSystem.is_changed", "src/oidcmsg/storage/abfile.py:AbstractFileSystem.__getitem__"]}
{"id": "C67", "title": "concurrent sets converge", "statement": "When two processes set the same key concurrently, afterwards both return the value that is on disc.", "quantifier": "all schedules of the steps of set", "why_tests_cant": "schedules", "anchors": ["src/oidcmsg/storage/abfile.py:AbstractFileSystem.__setitem__"]}
{"id": "C68", "title": "a failed refresh is not forgotten", "statement": "If get(k) raises because the changed file cannot be parsed, later gets do not return the outdated cached value.", "quantifier": "all contents and histories", "why_tests_cant": "histories", "anchors": ["src/oidcmsg/storage/abfile.py:AbstractFileSystem.__getitem__", "src/oidcmsg/storage/abfile.py:AbstractFileSystem.is_changed"]}
{"id": "C69", "title": "labels separate name spaces in shared storage", "statement": "Two labelled views of one file storage never see or change each other's keys provided neither rendered label is a prefix of the other; keys() and items() of a view return exactly its keys without the label.", "quantifier": "all labels, keys and histories", "why_tests_cant": "all label/key pairs", "anchors": ["src/oidcmsg/storage/abfile.py:LabeledAbstractFileSystem", "src/oidcmsg/storage/extension.py:key_label"]}
{"id": "C70", "title": "LabeledDict behaves like a map", "statement": "Any sequence of set/get/del/contains/keys on a LabeledDict behaves like a map (get of a missing key gives the default), for any label.", "quantifier": "all histories and labels", "why_tests_cant": "unbounded histories", "anchors": ["src/oidcmsg/storage/extension.py:LabeledDict", "src/oidcmsg/storage/extension.py:SetGetDict"]}
{"id": "C71", "title": "LabeledDict.update stores the given entries", "statement": "update({k: v, ...}) on a LabeledDict or LabeledAbstractFileSystem stores the entries.", "quantifier": "all dictionaries and labels", "why_tests_cant": "all inputs", "anchors": ["src/oidcmsg/storage/extension.py:LabeledDict.update", "src/oidcmsg/storage/abfile.py:LabeledAbstractFileSystem.update"]}
{"id": "C72", "title": "SQL storage keeps one row per key and returns the last value", "statement": "For any single-session history of set, update and delete starting from an empty table: at most one row per owner; get returns the last set/updated value or None; delete returns the number of removed rows.", "quantifier": "all histories", "why_tests_cant": "unbounded histories", "anchors": ["src/oidcmsg/storage/absqlalchemy.py:AbstractStorageSQLAlchemy"]}
{"id": "C73", "title": "SQL storage membership means key membership", "statement": "k in storage is true exactly if a row with owner k exists.", "quantifier": "all table contents and keys", "why_tests_cant": "all contents", "anchors": ["src/oidcmsg/storage/absqlalchemy.py:AbstractStorageSQLAlchemy.__contains__"]}
{"id": "C74", "title": "SQL delete survives a crash", "statement": "After delete(k) returns, k stays deleted if the process dies before any further call.", "quantifier": "all histories and crash points", "why_tests_cant": "crash points", "anchors": ["src/oidcmsg/storage/absqlalchemy.py:AbstractStorageSQLAlchemy.delete"]}
{"id": "C75", "title": "storage configuration selection", "statement": "get_storage_conf(conf, typ) returns conf[typ] if non-empty, else the default entry if typ is another type, and raises ConfigurationError if the default itself is asked for and missing; no configuration gives None.", "quantifier": "all configurations and types", "why_tests_cant": "all configurations", "anchors": ["src/oidcmsg/storage/init.py:get_storage_conf", "src/oidcmsg/storage/init.py:init_storage"]}
{"id": "C76", "title": "proper_path yields a relative directory path", "statement": "proper_path(p) starts with './' and ends with '/', and is idempotent.", "quantifier": "all strings", "why_tests_cant": "all strings", "anchors": ["src/oidcmsg/__init__.py:proper_path"]}
{"id": "C77", "title": "modsplit splits importable names", "statement": "modsplit('m:c') = (m,c) for names with a single colon; without a colon the last dotted component is split off and joining the parts with '.' gives the name back; anything else raises ValueError.", "quantifier": "all strings", "why_tests_cant": "all strings", "anchors": ["src/oidcmsg/storage/utils.py:modsplit"]}
{"id": "C78", "title": "factory returns the named class or None", "statement": "oauth2.factory(name) returns an instance whose type() is name if oauth2 defines (or imports) such a message class and None otherwise; oidc.factory prefers the oidc class of that name.", "quantifier": "all names and arguments", "why_tests_cant": "all names", "anchors": ["src/oidcmsg/oauth2/__init__.py:factory", "src/oidcmsg/oidc/__init__.py:factory"]}
{"id": "C79", "title": "claims requests are type checked recursively", "statement": "verify_claims_request(instance, base) returns normally exactly if every declared member that is present passes: simple members None or a dict with proper essential/value/values/purpose, nested members recursively, list members element-wise.", "quantifier": "all nested claim requests", "why_tests_cant": "unbounded nesting", "anchors": ["src/oidcmsg/oidc/identity_assurance.py:verify_claims_request", "src/oidcmsg/oidc/identity_assurance.py:_verify_claims_request_value"]}
{"id": "C80", "title": "evidence type determination", "statement": "Evidence.verify() returns normally exactly for evidence that satisfies the table of one of IdDocument, UtilityBill, QES, which is the one named by type (set if it was missing); anything else raises an exception of the package or ValueError.", "quantifier": "all evidence contents", "why_tests_cant": "all contents", "anchors": ["src/oidcmsg/oidc/identity_assurance.py:Evidence.verify"]}
{"id": "C81", "title": "add_duration ends for every duration text", "statement": "add_duration(t, text) returns or raises for every text that parse_duration accepts.", "quantifier": "all times and duration texts", "why_tests_cant": "non-termination cannot be observed by a test", "anchors": ["src/oidcmsg/time_util.py:add_duration", "src/oidcmsg/time_util.py:parse_duration"]}
{"id": "C82", "title": "times relative to now", "statement": "in_a_while(...) and a_while_ago(...) render the instant now plus/minus the given delta (whole seconds, years from 1000 on) so that str_to_time reads it back; epoch_in_a_while is the whole second of now plus the delta (at or after the epoch); consecutive shift_time calls add up.", "quantifier": "all instants and all integer deltas", "why_tests_cant": "all instants and deltas", "anchors": ["src/oidcmsg/time_util.py:in_a_while", "src/oidcmsg/time_util.py:a_while_ago", "src/oidcmsg/time_util.py:epoch_in_a_while", "src/oidcmsg/time_util.py:shift_time", "src/oidcmsg/time_util.py:time_in_a_while"]}
{"id": "C83", "title": "add_base_path makes relative paths absolute", "statement": "add_base_path(conf, item_paths, base_path) joins base_path to every named entry of conf that is a relative path and leaves absolute paths alone.", "quantifier": "all configurations", "why_tests_cant": "all configurations", "anchors": ["src/oidcmsg/__init__.py:add_base_path"]}
{"id": "C84", "title": "the length of a labelled view is the number of its keys", "statement": "len() of a LabeledAbstractFileSystem is the number of keys stored through it, whatever other views of the directory hold, for every label.", "quantifier": "all histories of all views and all labels", "why_tests_cant": "unbounded histories, all labels", "anchors": ["src/oidcmsg/storage/abfile.py:LabeledAbstractFileSystem.__len__"]}
{"id": "C85", "title": "clear empties the storage", "statement": "After clear() there is no file left in the storage directory.", "quantifier": "all directory contents", "why_tests_cant": "all states", "anchors": ["src/oidcmsg/storage/abfile.py:AbstractFileSystem.clear", "src/oidcmsg/storage/abfile.py:AbstractFileSystem.__delitem__"]}
{"id": "C86", "title": "listing and membership reflect deletions of other processes", "statement": "keys() and 'in' of a process do not show a key that another process has deleted.", "quantifier": "all histories of all processes", "why_tests_cant": "unbounded histories", "anchors": ["src/oidcmsg/storage/abfile.py:AbstractFileSystem.synch", "src/oidcmsg/storage/abfile.py:AbstractFileSystem.__contains__"]}
{"id": "C87", "title": "setting one key leaves the others alone", "statement": "set(k, v) does not change what a reader gets for any other key.", "quantifier": "all keys and values, all states", "why_tests_cant": "all pairs of keys", "anchors": ["src/oidcmsg/storage/abfile.py:AbstractFileSystem.__setitem__"]}
{"id": "C88", "title": "any text can be a key", "statement": "set(k, v) succeeds for every text k that can be encoded and every v that can be serialized.", "quantifier": "all keys", "why_tests_cant": "all keys", "anchors": ["src/oidcmsg/storage/abfile.py:AbstractFileSystem.__setitem__", "src/oidcmsg/storage/converter.py:QPKey"]}
{"id": "C89", "title": "iterating a LabeledDict gives its entries", "statement": "Iterating over a LabeledDict gives the pairs of keys (without label) and values stored in it.", "quantifier": "all labels and histories", "why_tests_cant": "all histories", "anchors": ["src/oidcmsg/storage/extension.py:LabeledDict.__iter__"]}
{"id": "C90", "title": "add_issuer marks every storage section", "statement": "add_issuer(conf, issuer) puts the quoted issuer into every section of the configuration but abstract_storage_cls and changes nothing else.", "quantifier": "all configurations and issuers", "why_tests_cant": "all configurations", "anchors": ["src/oidcmsg/context.py:add_issuer"]}
{"id": "C91", "title": "SQL set survives a crash", "statement": "After set(k, v) returns, get(k) gives v even if the process has died in between, whatever was pending before.", "quantifier": "all table states", "why_tests_cant": "all states", "anchors": ["src/oidcmsg/storage/absqlalchemy.py:AbstractStorageSQLAlchemy.set"]}
{"id": "C92", "title": "JSON values survive a restart unchanged", "statement": "With the JSON converter, after set(k, v) a new instance returns exactly v, for every JSON value and plain key.", "quantifier": "all JSON values", "why_tests_cant": "all values", "anchors": ["src/oidcmsg/storage/converter.py:JSON", "src/oidcmsg/storage/abfile.py:AbstractFileSystem"]}
{"id": "C93", "title": "identity assurance time stamps round trip", "statement": "from_iso8601_2004_time(to_iso8601_2004_time(t)) = t for every whole number of seconds t that a datetime can hold.", "quantifier": "all time stamps, all values of the clock", "why_tests_cant": "all instants", "anchors": ["src/oidcmsg/oidc/identity_assurance.py:to_iso8601_2004", "src/oidcmsg/oidc/identity_assurance.py:from_iso8601_2004", "src/oidcmsg/oidc/identity_assurance.py:time_stamp_ser", "src/oidcmsg/oidc/identity_assurance.py:time_stamp_deser"]}
{"id": "C94", "title": "identity assurance dates round to the day", "statement": "from_iso8601_2004_date(to_iso8601_2004_date(t)) is the start of the day of t, for every t but 0 in the years 1000 to 9999.", "quantifier": "all time stamps", "why_tests_cant": "all instants", "anchors": ["src/oidcmsg/oidc/identity_assurance.py:to_iso8601_2004_date", "src/oidcmsg/oidc/identity_assurance.py:from_iso8601_2004_date"]}
{"id": "C95", "title": "messages with time stamps can be passed on", "statement": "A message with a time stamp that was parsed and verified (a VerificationElement, a Document, a QES) can be serialized again.", "quantifier": "all messages with time stamps", "why_tests_cant": "all messages", "anchors": ["src/oidcmsg/oidc/identity_assurance.py:time_stamp_ser", "src/oidcmsg/oidc/identity_assurance.py:VerificationElement", "src/oidcmsg/message.py:Message.to_dict"]}
{"id": "C96", "title": "ClaimsConstructor holds admissible claims only", "statement": "After any history of assignments, accepted or refused, a ClaimsConstructor holds of each claim the last assigned value that was None, undeclared, an instance of the declared type or a constructor for the declared class, and to_dict() shows exactly these.", "quantifier": "all histories and base classes", "why_tests_cant": "unbounded histories", "anchors": ["src/oidcmsg/oidc/identity_assurance.py:ClaimsConstructor.__setitem__", "src/oidcmsg/oidc/identity_assurance.py:ClaimsConstructor.to_dict"]}
{"id": "C97", "title": "ClaimsConstructor accepts the documented dictionaries", "statement": "A ClaimsConstructor accepts for every claim None or a dictionary with the keys essential, value or values.", "quantifier": "all claims and dictionaries", "why_tests_cant": "all dictionaries", "anchors": ["src/oidcmsg/oidc/identity_assurance.py:ClaimsConstructor.__setitem__", "src/oidcmsg/oidc/identity_assurance.py:_correct_value_type"]}
{"id": "C98", "title": "IDAClaimsRequest.verify checks the verified claims", "statement": "IDAClaimsRequest.verify() returning normally implies that every verified_claims member of the request, at the top or in userinfo or id_token, one object or a list of them, passes verify_claims_request, and requests with proper ones are accepted.", "quantifier": "all requests", "why_tests_cant": "all requests", "anchors": ["src/oidcmsg/oidc/identity_assurance.py:IDAClaimsRequest.verify", "src/oidcmsg/oidc/identity_assurance.py:VerifiedClaimsRequest.verify"]}
{"id": "C99", "title": "reading a message ends", "statement": "Constructing a message, from_dict, from_json, from_urlencoded and assignment end on every input, for every class, however deep the messages and lists in it are nested.", "quantifier": "all classes and inputs", "why_tests_cant": "all inputs", "anchors": ["src/oidcmsg/message.py:Message.from_dict", "src/oidcmsg/message.py:Message.from_json", "src/oidcmsg/message.py:Message._add_value"]}
{"id": "C100", "title": "time stamps with a zone denote one instant", "statement": "from_iso8601_2004 gives, for the local time of an instant in any time zone (Z, or a sign with hours, minutes and perhaps seconds, with or without colons), that instant.", "quantifier": "all instants in the years 1 to 9999, all zone offsets", "why_tests_cant": "all instants and offsets", "anchors": ["src/oidcmsg/oidc/identity_assurance.py:from_iso8601_2004", "src/oidcmsg/oidc/identity_assurance.py:from_iso8601_2004_time"]}
{"id": "C101", "title": "device access token requests", "statement": "A device access token request with grant_type, device_code and client_id (RFC 8628 3.4) is accepted with True; one with device_code and without grant_type or client_id is refused with MissingRequiredAttribute; the message is left unchanged.", "quantifier": "all requests", "why_tests_cant": "all messages", "anchors": ["src/oidcmsg/oauth2/device_authorization.py:AccessTokenRequest.verify"]}
{"id": "C102", "title": "verify() demands the parameters the specifications require", "statement": "A message accepted by verify() has, with a non-empty value, every parameter that RFC 6749, 7662, 8414, 8417, 8628, 8693 and the OpenID Connect specifications mark as REQUIRED for it; a message without one is refused.", "quantifier": "all messages of all the classes, all keyword arguments and environments", "why_tests_cant": "all messages and all classes", "anchors": ["src/oidcmsg/oauth2/__init__.py:AuthorizationRequest", "src/oidcmsg/oidc/__init__.py:IdToken", "src/oidcmsg/message.py:Message.verify"]}
{"id": "C103", "title": "messages survive a signed JWT", "statement": "A message with proper values written by to_jwt() with any key and algorithm and read by from_jwt() with a key jar that has the key has the same parameters with the same values; to_jwt() fails only if the crypto library does.", "quantifier": "all classes, messages, algorithms and keys; crypto library with: what is signed is parsed as signed", "why_tests_cant": "all messages", "anchors": ["src/oidcmsg/message.py:Message.to_jwt", "src/oidcmsg/message.py:Message.from_jwt"]}
{"id": "C104", "title": "messages survive encryption", "statement": "A message that is encrypted by to_jwe(), or signed by to_jwt() and then encrypted, and read by from_jwe() or from_jwt() with the key has the same parameters with the same values.", "quantifier": "all classes, messages, algorithms and keys; crypto library with: decryption inverts encryption", "why_tests_cant": "all messages", "anchors": ["src/oidcmsg/message.py:Message.to_jwe", "src/oidcmsg/message.py:Message.from_jwe", "src/oidcmsg/message.py:Message.from_jwt"]}
{"id": "C105", "title": "ID Tokens survive to_jwt", "statement": "An ID Token written by IdToken.to_jwt() with a lifetime and read by from_jwt() has the claims it was made from, iat and exp, and instead of access_token and code their hashes.", "quantifier": "all claims, algorithms and lifetimes", "why_tests_cant": "all claims", "anchors": ["src/oidcmsg/oidc/__init__.py:IdToken.to_jwt", "src/oidcmsg/oidc/__init__.py:IdToken.pack", "src/oidcmsg/message.py:Message.from_jwt"]}
{"id": "C106", "title": "honest ID Tokens are accepted", "statement": "An ID Token that an honest provider made for a client with to_jwt(), signed with a key the client has for the provider, is accepted by verify() of every message that carries it, within its lifetime and with the access token and the code it was made for; the verified token holds what the provider put in.", "quantifier": "all claims, clients, messages, times, algorithms and keys", "why_tests_cant": "all honest runs", "anchors": ["src/oidcmsg/oidc/__init__.py:verify_id_token", "src/oidcmsg/oidc/__init__.py:IdToken.verify", "src/oidcmsg/oidc/__init__.py:IdToken.pack", "src/oidcmsg/oidc/__init__.py:AuthorizationResponse.verify", "src/oidcmsg/oidc/__init__.py:AccessTokenResponse.verify"]}
{"id": "C107", "title": "encrypted ID Tokens are accepted", "statement": "An ID Token that is signed and then encrypted for a client which can decrypt it is accepted by verify() if the signed token alone would be.", "quantifier": "all tokens and messages", "why_tests_cant": "all tokens", "anchors": ["src/oidcmsg/oidc/__init__.py:verify_id_token", "src/oidcmsg/message.py:Message.from_jwt"]}
{"id": "C108", "title": "messages are insertion-ordered maps, inherited methods included", "statement": "Any history of m[k]=v and setdefault (undeclared k), del, update, pop, popitem, clear, in, len, keys, values and items on a message gives the outputs of an insertion-ordered map: a new key goes to the end, an old one keeps its place, popitem takes the oldest entry, clear ends and empties the message.", "quantifier": "all operation histories and initial contents", "why_tests_cant": "histories are unbounded", "anchors": ["src/oidcmsg/message.py:Message.__iter__", "src/oidcmsg/message.py:Message.__setitem__", "src/oidcmsg/message.py:Message.__delitem__", "src/oidcmsg/message.py:Message.__getitem__"]}
{"id": "C109", "title": "setdefault returns what is stored", "statement": "After x = m.setdefault(k, v), m[k] is x.", "quantifier": "all classes, contents, keys and values", "why_tests_cant": "all contents and values", "anchors": ["src/oidcmsg/message.py:Message.__setitem__", "src/oidcmsg/message.py:Message._add_value"]}
{"id": "C110", "title": "serialize and deserialize fit together", "statement": "What m.serialize(method) wrote, deserialize with the same method reads as the same parameters and values; deserialize with an unknown method raises FormatError and leaves the message alone; without keys the methods jwt and jwe raise TypeError.", "quantifier": "all classes, proper contents and method names", "why_tests_cant": "all messages", "anchors": ["src/oidcmsg/message.py:Message.serialize", "src/oidcmsg/message.py:Message.deserialize"]}
{"id": "C111", "title": "texts that are no messages are refused", "statement": "from_urlencoded raises FormatError for a non-empty text without any field name=value and leaves the message alone; otherwise, if it accepts, it sets exactly the parameters that have a field; from_json accepts only JSON objects.", "quantifier": "all texts, classes and contents", "why_tests_cant": "all texts", "anchors": ["src/oidcmsg/message.py:Message.from_urlencoded", "src/oidcmsg/message.py:Message.from_json"]}
{"id": "C112", "title": "error responses are recognized", "statement": "is_error_message is true of a message read from a query string exactly if the string gives error a value, and of one read from a dictionary or JSON object if it has an error text.", "quantifier": "all classes and texts", "why_tests_cant": "all texts", "anchors": ["src/oidcmsg/oauth2/__init__.py:is_error_message", "src/oidcmsg/message.py:Message.from_urlencoded", "src/oidcmsg/message.py:Message.from_dict"]}
{"id": "C113", "title": "authorization requests in order are accepted", "statement": "An OpenID Connect authorization request with proper values and without request object and hint is accepted by verify() exactly if it has the required parameters with allowed values and keeps the rules on nonce, scope and prompt; it is left as it was.", "quantifier": "all requests, keyword arguments and environments", "why_tests_cant": "all requests", "anchors": ["src/oidcmsg/oidc/__init__.py:AuthorizationRequest.verify"]}
{"id": "C114", "title": "request objects made by make_openid_request are accepted", "statement": "The request object that make_openid_request makes of an authorization request that is in order is accepted by verify() of a message that carries it next to parameters of that request; the message then has the parameters of the request and the claims iss, iat, aud, exp, jti that the JWT class added.", "quantifier": "all requests, issuers, algorithms, lifetimes; JWT class of the crypto library with: what is packed is parsed as the payload and those claims", "why_tests_cant": "all requests", "anchors": ["src/oidcmsg/oidc/__init__.py:make_openid_request", "src/oidcmsg/oidc/__init__.py:AuthorizationRequest.verify"]}
{"id": "C115", "title": "contexts return what was put in", "statement": "After any history of set and get on an OidcContext with storage in memory or in files, get(item) returns what was last set for the item, a message as its dictionary, and for 'seed' the UTF-8 bytes of the text; in memory an item never set is None, in files a KeyError.", "quantifier": "all histories, items and values (files: values the converter takes, plain keys, one process)", "why_tests_cant": "histories are unbounded", "anchors": ["src/oidcmsg/context.py:OidcContext.set", "src/oidcmsg/context.py:OidcContext.get"]}
{"id": "C116", "title": "messages put in a context can be rebuilt after a restart", "statement": "A message that is set in a context with file storage and the JSON converter is read by another process as a dictionary from which from_dict makes a message with the same parameters and values.", "quantifier": "all classes, proper contents and items", "why_tests_cant": "all messages", "anchors": ["src/oidcmsg/context.py:OidcContext.set", "src/oidcmsg/storage/abfile.py:AbstractFileSystem.__getitem__", "src/oidcmsg/message.py:Message.from_dict"]}
{"id": "C117", "title": "a crash takes back exactly the deletions that were not committed", "statement": "If the process dies after a history of set, update, delete and flush, the table has what it had after the last set, update or flush.", "quantifier": "all histories", "why_tests_cant": "crash points, unbounded histories", "anchors": ["src/oidcmsg/storage/absqlalchemy.py:AbstractStorageSQLAlchemy.delete", "src/oidcmsg/storage/absqlalchemy.py:AbstractStorageSQLAlchemy.flush"]}
{"id": "C118", "title": "the order of the parameters does not matter to verify()", "statement": "verify() of two instances of a class with the same parameters and values in different orders returns the same (or raises the same exception, but for Evidence) and leaves the same parameters and values.", "quantifier": "all classes, contents, keyword arguments and environments", "why_tests_cant": "all orders", "anchors": ["src/oidcmsg/message.py:Message.verify", "src/oidcmsg/oauth2/__init__.py:AuthorizationResponse.verify", "src/oidcmsg/oidc/__init__.py:AuthorizationRequest.verify", "src/oidcmsg/oidc/__init__.py:IdToken.verify"]}
{"id": "C119", "title": "the transport does not matter to verify()", "statement": "A message whose values have their declared kinds gets from verify() the same verdict, and the same parameters and values, after it was written and read as JSON, dictionary or query string; so an authorization request that came as a query string is accepted exactly if the one the client wrote is in order.", "quantifier": "all classes, contents of declared kinds, keyword arguments and environments", "why_tests_cant": "all messages", "anchors": ["src/oidcmsg/message.py:Message.to_json", "src/oidcmsg/message.py:Message.from_json", "src/oidcmsg/message.py:Message.to_urlencoded", "src/oidcmsg/message.py:Message.from_urlencoded", "src/oidcmsg/oidc/__init__.py:AuthorizationRequest.verify"]}
{"id": "C120", "title": "issuers that share a configuration do not share data", "statement": "Contexts of different issuers that are made of one configuration with file storage do not see each other's data: whatever they do in whatever order, each is answered by what it wrote itself.", "quantifier": "all configurations, issuers, histories", "why_tests_cant": "histories and interleavings are unbounded", "anchors": ["src/oidcmsg/context.py:OidcContext.__init__", "src/oidcmsg/context.py:add_issuer", "src/oidcmsg/storage/abfile.py:AbstractFileSystem.__init__"]}
{"id": "C121", "title": "verify() repeated gives the same outcome", "statement": "What verify() leaves of a message is verified with the same outcome, be it a verdict or an exception, and is not changed any more.", "quantifier": "all classes, contents, keyword arguments and environments", "why_tests_cant": "all messages; second calls are not tested", "anchors": ["src/oidcmsg/message.py:Message.verify", "src/oidcmsg/oauth2/__init__.py:JWTSecuredAuthorizationRequest.verify", "src/oidcmsg/oidc/__init__.py:AuthorizationRequest.verify", "src/oidcmsg/oidc/__init__.py:RegistrationRequest.verify"]}
{"id": "C122", "title": "reading untrusted text raises anticipated exceptions only", "statement": "Reading any dictionary, JSON text or query string as a message of any class succeeds or raises an exception of the library or a ValueError (which JSONDecodeError is), never a TypeError, KeyError, IndexError or AttributeError.", "quantifier": "all classes, texts and dictionaries", "why_tests_cant": "all texts", "anchors": ["src/oidcmsg/message.py:Message.from_urlencoded", "src/oidcmsg/message.py:Message.from_json", "src/oidcmsg/message.py:Message.from_dict", "src/oidcmsg/message.py:Message._add_value", "src/oidcmsg/oidc/__init__.py:deserialize_from_one_of"]}
{"id": "C123", "title": "parameters that a class does not declare do not matter to verify()", "statement": "verify() of two messages of a class that differ only in undeclared parameters returns the same or raises the same exception and leaves the same values in the other parameters; so fields that are added to a query string or members that are added to a JSON object change nothing.", "quantifier": "all classes, contents, added parameters, keyword arguments and environments", "why_tests_cant": "all additional parameters", "anchors": ["src/oidcmsg/message.py:Message.verify", "src/oidcmsg/message.py:Message.from_urlencoded", "src/oidcmsg/message.py:Message.from_dict", "src/oidcmsg/oidc/__init__.py:AuthorizationResponse.verify", "src/oidcmsg/oidc/__init__.py:OpenIDSchema.verify"]}
{"id": "C124", "title": "JSON documents of other implementations are read and written as they are", "statement": "A JSON document whose members have the types that the class declares is read, and writing the message gives the same document again; objects in parameters of JSON type and single texts for lists are read, too.", "quantifier": "all classes, documents and texts", "why_tests_cant": "all documents; tests start from messages of the library", "anchors": ["src/oidcmsg/message.py:Message.from_json", "src/oidcmsg/message.py:Message.to_json", "src/oidcmsg/message.py:Message._add_value", "src/oidcmsg/message.py:json_serializer"]}
{"id": "C125", "title": "honest logout tokens are accepted", "statement": "A back-channel logout request with a logout token that has the claims of the specification, is for the client, issued now or before and signed with the provider's key is accepted by verify(), whether the token was made with this library or another one, and its claims are in the verified slot.", "quantifier": "all claims, keys, algorithms, clocks; JWS/JWT of the crypto library as an environment", "why_tests_cant": "all tokens", "anchors": ["src/oidcmsg/oidc/session.py:BackChannelLogoutRequest.verify", "src/oidcmsg/oidc/session.py:LogoutToken.verify", "src/oidcmsg/message.py:Message.to_jwt", "src/oidcmsg/message.py:Message.from_jwt"]}
{"id": "C126", "title": "ID Tokens of other implementations are accepted", "statement": "A response with an ID Token that another implementation made (claims of the declared types, aud as text or list) and that is for the client, current, signed with the issuer's key and bound to access token and code is accepted by verify(); its claims are in the verified slot.", "quantifier": "all claims, messages, keys, algorithms, clocks", "why_tests_cant": "all tokens", "anchors": ["src/oidcmsg/oidc/__init__.py:verify_id_token", "src/oidcmsg/oidc/__init__.py:IdToken.verify", "src/oidcmsg/oidc/__init__.py:AuthorizationResponse.verify", "src/oidcmsg/message.py:Message.from_jwt"]}
{"id": "C127", "title": "ID Tokens serve as hints of logout requests", "statement": "A logout request whose id_token_hint is an ID Token that this client got is accepted by verify(), also if the ID Token has expired meanwhile (OpenID Connect RP-Initiated Logout 1.0, section 2).", "quantifier": "all claims, keys, algorithms, clocks", "why_tests_cant": "all tokens and times", "anchors": ["src/oidcmsg/oidc/session.py:EndSessionRequest.verify", "src/oidcmsg/oidc/__init__.py:verify_id_token", "src/oidcmsg/oidc/__init__.py:IdToken.verify"]}
{"id": "C128", "title": "verify() changes nothing but what it verified", "statement": "verify() writes or removes only the slots for what it verified, the defaults of the encryption parameters of a registration and, after a request object was checked, the parameters that the object replaces; all other parameters stay, with their values and in their order. A message that verify() refuses keeps its parameters and values.", "quantifier": "all classes, contents, keyword arguments and environments, all outcomes", "why_tests_cant": "all messages; tests look at the outcome", "anchors": ["src/oidcmsg/message.py:Message.verify", "src/oidcmsg/oidc/__init__.py:AuthorizationRequest.verify", "src/oidcmsg/oidc/__init__.py:RegistrationRequest.verify", "src/oidcmsg/oauth2/__init__.py:JWTSecuredAuthorizationRequest.verify"]}
{"id": "C129", "title": "verify() raises the exceptions that receivers anticipate", "statement": "verify() of a message that somebody sent, in whatever encoding, raises exceptions of the library or ValueErrors only, never a TypeError, KeyError or AttributeError.", "quantifier": "all classes, contents, keyword arguments and environments", "why_tests_cant": "all messages, also those that no honest sender makes", "anchors": ["src/oidcmsg/message.py:Message.verify", "src/oidcmsg/oauth2/__init__.py:ResponseMessage.verify", "src/oidcmsg/oidc/__init__.py:OpenIDSchema.verify", "src/oidcmsg/oidc/__init__.py:JsonWebToken.verify", "src/oidcmsg/oidc/__init__.py:ProviderConfigurationResponse.verify"]}
{"id": "C130", "title": "expectations given to verify() only narrow what is accepted", "statement": "A message that verify() accepts with expectations of the caller (iss, nonce, client_id, aud, allowed_sign_alg) is accepted without them, too, and one that is accepted without indulgence (verify=False, allow_sign_alg_none, allow_http) is accepted with it; what is left in the message is the same. So no expectation can make verify() accept what it refused.", "quantifier": "all classes, contents, keyword arguments and environments whose key jar does not look at these arguments", "why_tests_cant": "pairs of calls on all messages", "anchors": ["src/oidcmsg/oidc/__init__.py:verify_id_token", "src/oidcmsg/oidc/__init__.py:IdToken.verify", "src/oidcmsg/oidc/session.py:LogoutToken.verify", "src/oidcmsg/oauth2/__init__.py:AuthorizationResponse.verify", "src/oidcmsg/oidc/__init__.py:AuthorizationRequest.verify"]}
{"id": "C131", "title": "verify() ignores the arguments its class has no use for", "statement": "The outcome of verify() and what is left in the message depend only on the keyword arguments that the class uses (uses): other arguments do not change it, whatever their values.", "quantifier": "all classes, contents, keyword arguments and environments", "why_tests_cant": "pairs of calls on all messages with all arguments", "anchors": ["src/oidcmsg/message.py:Message.verify", "src/oidcmsg/oidc/__init__.py:verify_id_token", "src/oidcmsg/oauth2/__init__.py:JWTSecuredAuthorizationRequest.verify", "src/oidcmsg/oidc/session.py:BackChannelLogoutRequest.verify"]}
{"id": "C132", "title": "parameters have the types of the specifications", "statement": "A JSON document with the parameters that the OAuth2 and OpenID Connect specifications define for a message, each with a value of the type defined there, is read by the class for this message; texts, numbers, truth values and lists come out as such. Whatever document was read, parameters of these types have no value of another type.", "quantifier": "all documents; the messages of RFC 6749, 7033, 7519, 7662, 8414, 8417, 8628, 8693, 9101, 9126 and of OpenID Connect Core, Discovery, Registration and Logout", "why_tests_cant": "all values of all parameters; tests use a few documents", "anchors": ["src/oidcmsg/message.py:Message.from_json", "src/oidcmsg/message.py:Message.from_dict", "src/oidcmsg/oidc/__init__.py:IdToken", "src/oidcmsg/oidc/__init__.py:RegistrationRequest", "src/oidcmsg/oidc/__init__.py:ProviderConfigurationResponse", "src/oidcmsg/oauth2/__init__.py:ASConfigurationResponse"]}
{"id": "C133", "title": "values that the specifications name are allowed", "statement": "verify() never raises NotAllowedValue for a message whose parameters with enumerated values (error codes, display, prompt, grant types, client types) have values that the specifications name.", "quantifier": "all messages, keyword arguments and environments", "why_tests_cant": "all combinations of values", "anchors": ["src/oidcmsg/message.py:Message._type_check", "src/oidcmsg/oauth2/__init__.py:AuthorizationErrorResponse", "src/oidcmsg/oidc/__init__.py:AuthorizationErrorResponse", "src/oidcmsg/oidc/__init__.py:AuthorizationRequest"]}
{"id": "C134", "title": "verify() demands no more than the specifications", "statement": "A message that has the parameters marked as required in its specification, and enumerated parameters with values of the specification, is accepted by verify(), whatever other parameters it has or lacks.", "quantifier": "all messages, keyword arguments and environments", "why_tests_cant": "all messages", "anchors": ["src/oidcmsg/message.py:Message.verify", "src/oidcmsg/oauth2/__init__.py:ResponseMessage.verify", "src/oidcmsg/oidc/__init__.py:JRD", "src/oidcmsg/oauth2/__init__.py:ASConfigurationResponse", "src/oidcmsg/oauth2/__init__.py:AccessTokenRequest"]}
{"id": "C135", "title": "absent parameters get the defaults of the specifications", "statement": "A parameter that a received document does not have is absent from the message or has the default value that the specification gives it.", "quantifier": "all classes, all documents", "why_tests_cant": "all classes and all documents", "anchors": ["src/oidcmsg/message.py:Message.set_defaults", "src/oidcmsg/oidc/__init__.py:RegistrationRequest", "src/oidcmsg/oidc/__init__.py:ProviderConfigurationResponse", "src/oidcmsg/oauth2/__init__.py:ASConfigurationResponse", "src/oidcmsg/oauth2/device_authorization.py:AccessTokenRequest"]}
{"id": "C136", "title": "the times at which a message is accepted are an interval", "statement": "A message that verify() accepts at two times is accepted at every time between them, with the same result. For messages with an ID Token this interval has no beginning, for logout tokens and requests with one no end; for messages without tokens the time makes no difference to verify().", "quantifier": "all classes, contents, keyword arguments and environments, all times", "why_tests_cant": "all times", "anchors": ["src/oidcmsg/oidc/__init__.py:IdToken.verify", "src/oidcmsg/oidc/__init__.py:JsonWebToken.verify", "src/oidcmsg/oidc/session.py:LogoutToken.verify", "src/oidcmsg/oidc/session.py:BackChannelLogoutRequest.verify", "src/oidcmsg/oidc/__init__.py:verify_id_token"]}
{"id": "C137", "title": "the skew widens what is accepted", "statement": "A message that verify() accepts with some skew is accepted with a larger one, JWTs with nbf excepted (C40). With an ID Token the skew amounts to a clock that is slow by it, with a logout token to one that is fast by it; for messages without tokens it makes no difference.", "quantifier": "all classes, contents, keyword arguments, all times, all skews, environments whose key jar does not look at the skew", "why_tests_cant": "all times and skews", "anchors": ["src/oidcmsg/oidc/__init__.py:IdToken.verify", "src/oidcmsg/oidc/__init__.py:JsonWebToken.verify", "src/oidcmsg/oidc/session.py:LogoutToken.verify", "src/oidcmsg/oidc/__init__.py:verify_id_token"]}
{"id": "C138", "title": "nothing with an ID Token is accepted for ever", "statement": "For each ID Token, response with an ID Token and logout request with an ID Token as hint there is a time after which verify() refuses it; for each logout token and request with one there is a time before which verify() refuses it.", "quantifier": "all contents, keyword arguments and environments, all times", "why_tests_cant": "unbounded time", "anchors": ["src/oidcmsg/oidc/__init__.py:IdToken.verify", "src/oidcmsg/oidc/__init__.py:verify_id_token", "src/oidcmsg/oidc/session.py:EndSessionRequest.verify", "src/oidcmsg/oidc/session.py:LogoutToken.verify"]}
{"id": "C139", "title": "an honest code flow goes through", "statement": "The authorization request of a client, the response of the provider, the token request and the token response with an ID Token, each written and sent as the library does it, are read and accepted by verify() on the other side with the arguments a careful client or provider gives, and each side has the parameters and claims the other side sent.", "quantifier": "all client ids, redirect URIs, states, nonces, codes, access tokens, issuers, subjects, scopes of words, signing algorithms, keys and lifetimes, all signature schemes whose parties agree", "why_tests_cant": "all texts, with every character that needs quoting", "anchors": ["src/oidcmsg/oidc/__init__.py:AuthorizationRequest.verify", "src/oidcmsg/oidc/__init__.py:AuthorizationResponse.verify", "src/oidcmsg/oidc/__init__.py:AccessTokenResponse.verify", "src/oidcmsg/oidc/__init__.py:verify_id_token", "src/oidcmsg/oauth2/__init__.py:AccessTokenRequest", "src/oidcmsg/message.py:Message.to_urlencoded", "src/oidcmsg/message.py:Message.from_urlencoded", "src/oidcmsg/message.py:Message.to_json", "src/oidcmsg/oidc/__init__.py:IdToken.verify"]}
{"id": "C140", "title": "an honest hybrid flow goes through", "statement": "An authorization response with code, access token and an ID Token made with their hashes, sent as a query, is read and accepted by verify() of a client that checks issuer, client id, nonce and the hashes; the client has the code, the token and the claims, and at_hash and c_hash are the hashes of the two.", "quantifier": "all flows as in C139, all hash functions that answer with a text", "why_tests_cant": "all texts and hash functions", "anchors": ["src/oidcmsg/oidc/__init__.py:AuthorizationResponse.verify", "src/oidcmsg/oidc/__init__.py:IdToken.verify", "src/oidcmsg/oidc/__init__.py:IdToken.pack", "src/oidcmsg/oidc/__init__.py:verify_id_token"]}
{"id": "C141", "title": "messages that differ are written differently", "statement": "Two messages of a class with proper values that differ in a parameter have different JSON texts, different query strings and, whatever algorithms and keys, different JWTs; so a value cannot pass itself off as other parameters, and what is signed determines the message.", "quantifier": "all classes, all pairs of proper contents, algorithms and keys", "why_tests_cant": "pairs of arbitrary texts", "anchors": ["src/oidcmsg/message.py:Message.to_json", "src/oidcmsg/message.py:Message.to_urlencoded", "src/oidcmsg/message.py:Message.to_jwt"]}
{"id": "C142", "title": "an ID Token is accepted for one issuer, client and nonce", "statement": "If verify() accepts two messages with the same ID Token, at whatever times, for clients that each give the issuer, client id and nonce they expect, then these are the same for both, and both get the same claims.", "quantifier": "all pairs of messages, classes, arguments and times, all environments", "why_tests_cant": "pairs of runs", "anchors": ["src/oidcmsg/oidc/__init__.py:IdToken.verify", "src/oidcmsg/oidc/__init__.py:verify_id_token", "src/oidcmsg/oidc/__init__.py:AuthorizationResponse.verify", "src/oidcmsg/oidc/__init__.py:AccessTokenResponse.verify"]}
{"id": "C143", "title": "code and access token cannot be exchanged", "statement": "If verify() accepts two authorization responses with the same signed ID Token, then their codes have the same hash and their access tokens have the same hash, for the hash function that belongs to the algorithm of the token.", "quantifier": "all pairs of responses, arguments and times, all environments", "why_tests_cant": "pairs of runs", "anchors": ["src/oidcmsg/oidc/__init__.py:verify_id_token", "src/oidcmsg/oidc/__init__.py:AuthorizationResponse.verify"]}
{"id": "C144", "title": "a request object belongs to the client that sends it", "statement": "If verify() of an OpenID Connect authorization request accepts a signed request object, then its signature was verified with keys of the client named in the request, and the message is that client's afterwards: client_id is not another one.", "quantifier": "all requests, request objects, arguments, key jars", "why_tests_cant": "all request objects", "anchors": ["src/oidcmsg/oidc/__init__.py:AuthorizationRequest.verify"]}
{"id": "C145", "title": "request objects are signed as demanded", "statement": "If verify() of an authorization request (OpenID Connect, JAR, pushed) accepts a request object, then it is a JWS whose signature was verified, with the algorithm in the argument alg if that is given.", "quantifier": "all requests, request objects, arguments, key jars", "why_tests_cant": "all request objects", "anchors": ["src/oidcmsg/oidc/__init__.py:AuthorizationRequest.verify", "src/oidcmsg/oauth2/__init__.py:JWTSecuredAuthorizationRequest.verify", "src/oidcmsg/oauth2/__init__.py:PushedAuthorizationRequest.verify", "src/oidcmsg/message.py:Message.from_jwt"]}
{"id": "C146", "title": "expired request objects are refused", "statement": "verify() of an authorization request does not accept a request object whose exp has passed.", "quantifier": "all requests, request objects, arguments, times", "why_tests_cant": "all times", "anchors": ["src/oidcmsg/oidc/__init__.py:AuthorizationRequest.verify"]}
{"id": "C147", "title": "request objects contain no request", "statement": "After verify() accepted an authorization request with a request object, the message has no parameter request: a request object must not contain one (OpenID Connect Core 6.1), and what is there has not been verified.", "quantifier": "all requests, request objects, arguments", "why_tests_cant": "all request objects", "anchors": ["src/oidcmsg/oidc/__init__.py:AuthorizationRequest.verify"]}
{"id": "C148", "title": "parameters that belong together come together, those that exclude each other do not", "statement": "If verify() accepts a message that has a parameter which by the specifications must be accompanied by another (encryption alg and enc, registration uri and access token, actor_token and its type, client_assertion and its type, client_secret and its expiry, access_token and token_type, error_description and error, _claim_names and _claim_sources, post_logout_redirect_uri and id_token_hint), then it has the other; and it does not have both of two that exclude each other (jwks and jwks_uri, request and request_uri, code or access_token and error).", "quantifier": "all messages of the classes, all arguments and environments", "why_tests_cant": "all combinations of parameters", "anchors": ["src/oidcmsg/oidc/__init__.py:RegistrationRequest.verify", "src/oidcmsg/oidc/__init__.py:RegistrationResponse.verify", "src/oidcmsg/oidc/session.py:EndSessionRequest.verify", "src/oidcmsg/oauth2/__init__.py:TokenExchangeRequest", "src/oidcmsg/oidc/__init__.py:AccessTokenRequest"]}
{"id": "C149", "title": "what the caller expects is there", "statement": "If verify() of an ID Token, JWT, client assertion, logout token or authorization response accepts and the caller gave the issuer, audience, client id or nonce to expect, then the message has that claim and it is the expected one; leaving the claim out does not do.", "quantifier": "all messages of the classes, all expected values, all environments", "why_tests_cant": "all contents", "anchors": ["src/oidcmsg/oidc/__init__.py:IdToken.verify", "src/oidcmsg/oidc/__init__.py:JsonWebToken.verify", "src/oidcmsg/oidc/session.py:LogoutToken.verify", "src/oidcmsg/oauth2/__init__.py:AuthorizationResponse.verify", "src/oidcmsg/oidc/__init__.py:AuthorizationResponse.verify"]}
{"id": "C150", "title": "what is read as a point in time is one", "statement": "str_to_time, and the deserialisers of time stamps and dates of identity assurance, accept exactly the texts that consist of a date of the Gregorian calendar (four-digit year, month and day), a time of day (hours to 23, minutes to 59, seconds to 59, or 61 in str_to_time), and Z, a fraction of a second, or an offset from UTC; and the result is the instant with that date and time.", "quantifier": "all texts of ASCII characters", "why_tests_cant": "infinitely many texts; dates that do not exist, missing digits, signs, separators", "anchors": ["src/oidcmsg/time_util.py:str_to_time", "src/oidcmsg/oidc/identity_assurance.py:time_stamp_deser", "src/oidcmsg/oidc/identity_assurance.py:date_deser", "src/oidcmsg/oidc/identity_assurance.py:from_iso8601_2004"]}
{"id": "C151", "title": "JSON texts are read exactly by the grammar", "statement": "json_deserializer, the JSON converter of the stores and from_json accept a text exactly if it is a JSON text by RFC 8259 (without numbers beyond the range of binary64), and read it as the value the grammar gives it: one value, whatever the white space and escapes; of members with the same name the last counts; a number with fraction or exponent becomes the binary64 number nearest to it. from_json refuses every other text and leaves the message as it was.", "quantifier": "all texts, classes and contents", "why_tests_cant": "infinitely many texts; every place for white space, every escape, unpaired surrogates, stray commas", "anchors": ["src/oidcmsg/message.py:Message.from_json", "src/oidcmsg/message.py:json_deserializer", "src/oidcmsg/storage/converter.py:JSON.deserialize"]}
{"id": "C152", "title": "query texts are read exactly as their grammar says", "statement": "from_urlencoded reads a text as the fields between its ampersands: name and value are what stands before and after the first equals sign, with plus for a space and percent-encoded UTF-8 (digits in either case) decoded; fields without a value count for nothing; the values of a name come together in their order. How a query is written does not matter for the message. A text with escapes that are no UTF-8 shows the replacement character. The texts that urlencode writes have the meaning they were written for.", "quantifier": "all texts, classes and contents", "why_tests_cant": "infinitely many texts; every escape of every character, broken and overlong sequences, stray separators", "anchors": ["src/oidcmsg/message.py:Message.from_urlencoded", "src/oidcmsg/message.py:Message.to_urlencoded", "src/oidcmsg/storage/converter.py:QPKey.deserialize"]}
{"id": "C153", "title": "discovery and registration go through", "statement": "A client that reads the JSON document of a provider whose metadata follow OpenID Connect Discovery (issuer an https URL with host and path only, scopes with openid, RS256, a token endpoint) accepts it and has the metadata; a provider that reads the registration request of a client that keeps the rules accepts it and has the client metadata, with the default encryption methods filled in; the client accepts the response.", "quantifier": "all metadata, client metadata, keyword arguments and environments that know the host", "why_tests_cant": "all documents", "anchors": ["src/oidcmsg/oidc/__init__.py:ProviderConfigurationResponse.verify", "src/oidcmsg/oidc/__init__.py:RegistrationRequest.verify", "src/oidcmsg/oidc/__init__.py:RegistrationResponse.verify", "src/oidcmsg/message.py:Message.to_json", "src/oidcmsg/message.py:Message.from_json"]}
{"id": "C154", "title": "client assertions authenticate one client to one server for a time", "statement": "A token request with a client assertion is accepted at the token endpoint, only with the assertion type of RFC 7523; the server reads from the assertion what the client signed, and verify() accepts it exactly if the server is one of its audiences, its issuer is the client the server asks for, and the time is between iat and exp up to the skew.", "quantifier": "all clients, audiences, times, skews, keys the server trusts and environments", "why_tests_cant": "all times and audiences", "anchors": ["src/oidcmsg/oidc/__init__.py:AuthnToken", "src/oidcmsg/oidc/__init__.py:JsonWebToken.verify", "src/oidcmsg/oidc/__init__.py:AccessTokenRequest", "src/oidcmsg/message.py:Message.to_jwt", "src/oidcmsg/message.py:Message.from_jwt"]}
{"id": "C155", "title": "extra parameters carry over without consequences", "statement": "add_non_standard(msg1, msg2) gives msg1 the parameters of msg2 that neither class declares, with their values, and changes nothing else; doing it twice is doing it once; verify() of msg1 has the same outcome as before.", "quantifier": "all pairs of classes and messages", "why_tests_cant": "all parameter names and values", "anchors": ["src/oidcmsg/message.py:add_non_standard", "src/oidcmsg/message.py:Message.extra", "src/oidcmsg/message.py:Message.__setitem__"]}
{"id": "C156", "title": "a context keeps data and keys where its configuration says", "statement": "The data of a context with an issuer are in the storage named by the default section, which is told the quoted issuer, or in memory without one; its keys in the storage of the section for the key jar, of the default section if that is missing (then keys and data share one storage), or in memory. An empty section means the default one, except for a context with an issuer, where it is a configuration error.", "quantifier": "all configurations and issuers", "why_tests_cant": "all sections", "anchors": ["src/oidcmsg/context.py:OidcContext.__init__", "src/oidcmsg/context.py:OidcContext._keyjar", "src/oidcmsg/context.py:add_issuer", "src/oidcmsg/storage/init.py:get_storage_conf", "src/oidcmsg/storage/init.py:storage_factory"]}
{"id": "C157", "title": "texts are read as numbers exactly by Python's grammar", "statement": "A text is read as an integer or a floating point number if and only if it is one: optional white space, a sign, digits with single underscores between them (and for floats a fraction, an exponent or the names of the special values). A text assigned to an integer parameter of a message is stored as that integer, or refused with ValueError and nothing stored. Integers are written so that they are read back.", "quantifier": "all texts of ASCII characters, all classes and integer parameters", "why_tests_cant": "all texts", "anchors": ["src/oidcmsg/message.py:Message._add_value", "src/oidcmsg/message.py:Message.__setitem__", "src/oidcmsg/time_util.py:parse_duration"]}
{"id": "C158", "title": "durations are read exactly as their grammar says", "statement": "parse_duration() accepts a text if and only if it is an optional minus, P, and then in this order, as far as the text goes, numbers of years, months and days, a T, and numbers of hours, minutes and seconds, a missing letter counting as zero; only the seconds may have a fraction, no part may be signed with a minus, and text behind the seconds is ignored. It returns exactly these numbers.", "quantifier": "all texts of ASCII characters", "why_tests_cant": "all texts", "anchors": ["src/oidcmsg/time_util.py:parse_duration", "src/oidcmsg/time_util.py:D_FORMAT"]}
{"id": "C159", "title": "Serializers and deserializers fit together", "statement": "Every public serializer for a message class (msg_ser, msg_ser_json, claims_ser, any_ser, link_ser for links) writes a message, as JSON or as a dictionary and at every nesting level, so that every deserializer for that class reads the same parameters back; msg_ser, link_ser and any_ser do so as query texts too. A plain dictionary is written so that it reads as the message from_dict makes of it, a dictionary of texts as the query text with its fields in order. Formats other than urlencoded, json and dict are refused. Limits: a JSON text read as urlencoded can lose its parameters without an error when it contains an equals sign, and any_deser refuses what any_ser makes of a dictionary.", "quantifier": "all classes, serializers, matching deserializers, nesting levels and canonical contents", "why_tests_cant": "the tests serialize one address, one claims object and one link; the pairs of functions, levels and contents are a product that no list of tests covers", "anchors": ["src/oidcmsg/message.py:916-956", "src/oidcmsg/message.py:995-1014", "src/oidcmsg/oidc/__init__.py:67-164", "src/oidcmsg/oidc/__init__.py:1058-1105"]}
{"id": "C160", "title": "a context's key jar holds its keys under its own name", "statement": "A context uses a key jar that is given to it as it is. Otherwise the key jar is made from keys, or from jwks if there are no keys, in the storage for keys; the path and storage entries of keys are not passed on. The context's own keys are then found under its entity identifier too, behind what was there, and no other owner's keys change. add_boxes gives every named attribute the storage of its section and leaves all other attributes alone, also when it fails.", "quantifier": "all configurations, entity identifiers, key jars that hold keys per owner, and lists of boxes", "why_tests_cant": "the tests look at four configurations with one entity identifier and never at add_boxes", "anchors": ["src/oidcmsg/context.py:25-76"]}
{"id": "C161", "title": "a class is imported again by its qualified name", "statement": "Importing the qualified name of a class, or its module and its name with a colon between them, asks the module of that class for that name and gives what the module has there. Classes with the same qualified name have the same module and name. A name that cannot be split, or whose module cannot be imported, gives the error of that step.", "quantifier": "all module names and class names without colon, class names without dot, and all ways to import modules and to look up attributes", "why_tests_cant": "the tests import a handful of fixed names; qualified_name is never called", "anchors": ["src/oidcmsg/storage/utils.py:19-28"]}
{"id": "C162", "title": "the deserializers for tokens read claims as JSON and nothing else", "statement": "What any serializer for messages writes of the claims of a JSON web token, as JSON or as a dictionary and at every level, jwt_deser reads as the same claims, also when it is told that the format is urlencoded. It reads every text as JSON under the names json and urlencoded, so query texts are never decoded; a text under the name dict is an AttributeError; other values are written as JSON first; other formats are refused. idtoken_deser raises TypeError for every value, because it calls from_jwt without a key jar.", "quantifier": "all contents of a token, values, texts, names of formats and levels", "why_tests_cant": "no test calls jwt_deser or idtoken_deser", "anchors": ["src/oidcmsg/oidc/__init__.py:98-100", "src/oidcmsg/oidc/__init__.py:1018-1025", "src/oidcmsg/message.py:161-175"]}
{"id": "C163", "title": "verify() of a message with tokens raises the documented exceptions", "statement": "verify() with a key jar, of a message whose ID Token, ID Token hint or logout token is a text that is not encrypted, has an algorithm in its header if it is a JWS, and claims that are a JSON object with no null as error_description or birthdate and, in a logout token, no events given as a text that is the JSON of something else than an object, raises only exceptions of the library, ValueErrors, UnsupportedAlgorithm and exceptions of the crypto library and the key jar themselves. No other claim of a token, whatever its type, leads to a TypeError, KeyError or AttributeError, and neither does writing the verified token to the log. Each condition is needed.", "quantifier": "all messages of all classes except those of identity assurance, all tokens with any claims, all answers of the crypto library and the key jar, all verification arguments of the usual types", "why_tests_cant": "claims of unexpected types are hardly tested and every exception would have to be provoked one by one", "anchors": ["src/oidcmsg/oidc/__init__.py:267-350", "src/oidcmsg/oidc/__init__.py:568-587", "src/oidcmsg/oidc/__init__.py:766-832", "src/oidcmsg/oidc/session.py:56-186", "src/oidcmsg/message.py:482-560", "src/oidcmsg/message.py:236-320"]}
{"id": "C164", "title": "verify() of a request with a request object raises the documented exceptions", "statement": "verify() with a key jar, of an authorization request that was received as a query or as JSON and whose request parameter is a text (signed, plain or encrypted) with an algorithm in its header, if it has one, and claims that are a JSON object, raises only exceptions of the library, ValueErrors and exceptions of the crypto library and the key jar themselves; the same is asked of an ID Token hint inside of the request object. No parameter inside of the request object, whatever its type, leads to a TypeError, KeyError or AttributeError, and neither does writing parameters that differ to the log. JWT secured and pushed authorization requests need no condition on a hint or on their other parameters. Each condition is needed.", "quantifier": "all authorization requests of OpenID Connect that can be read, all JWT secured and pushed authorization requests, all request objects with any claims, all answers of the crypto library and the key jar, all verification arguments", "why_tests_cant": "request objects with parameters of unexpected types are hardly tested, and the messages for the log are made only if parameters differ", "anchors": ["src/oidcmsg/oidc/__init__.py:433-513", "src/oidcmsg/oidc/__init__.py:847-848", "src/oidcmsg/oauth2/__init__.py:324-378", "src/oidcmsg/message.py:482-560", "src/oidcmsg/message.py:236-320"]}
{"id": "C165", "title": "a message that keeps to its specification is accepted by its receiver", "statement": "A message that has the parameters its specification requires (RFC 6749, 7662, 8417, 8628, 8693, OpenID Connect Core, Registration and Discovery), values of the declared kinds and enumerated values of the specification can be written as a query string, as JSON and as a dictionary without any exception; whoever reads it has exactly the parameters that were sent, and verify() accepts it and leaves it as it is, with any keyword arguments.", "quantifier": "all contents of the 25 kinds of messages of the specifications whose requirements are types, required parameters and enumerated values; all keyword arguments of verify()", "why_tests_cant": "the tests send a few fixed messages; the exchange of tokens, the introspection, the password grant and the device authorization are tested with one message each or none", "anchors": ["src/oidcmsg/message.py:86-160", "src/oidcmsg/message.py:177-441", "src/oidcmsg/message.py:442-480", "src/oidcmsg/oauth2/__init__.py:84-300", "src/oidcmsg/oidc/__init__.py:590-600"]}
{"id": "C166", "title": "a request for verified claims of the right shape is refused with the documented exceptions", "statement": "verify_claims_request, and verify() of VerificationElementRequest, VerifiedClaimsRequest and IDAClaimsRequest, refuse a request only with exceptions of the library and ValueErrors and leave it as it is, if the request has the right shape: null or objects where claims of a class are asked for, lists of such for evidence, and in a request for a single claim values that are a list and a purpose that is a text. The values, types and further members of the request, and null anywhere, never lead to a TypeError, KeyError or AttributeError. Each condition is needed.", "quantifier": "all requests for verified claims of any depth and content, also read from JSON by IDAClaimsRequest.verify()", "why_tests_cant": "the tests have a few proper requests and none with parts of unexpected types", "anchors": ["src/oidcmsg/oidc/identity_assurance.py:406-470", "src/oidcmsg/oidc/identity_assurance.py:473-512", "src/oidcmsg/message.py:906-913"]}
{"id": "C167", "title": "a caller catches refusals with OidcMsgError and ValueError", "statement": "Every exception class that the library defines for messages is derived from OidcMsgError. A caller who catches OidcMsgError and ValueError catches everything that verify() raises of a message with values of the expected forms and that from_dict() raises of any dictionary; what Message.verify() itself raises is a MessageException.", "quantifier": "all classes of exceptions of the library, all messages, dictionaries and verification arguments", "why_tests_cant": "tests expect single exceptions in single cases; none looks at the class hierarchy", "anchors": ["src/oidcmsg/storage/extension.py:4-160", "src/oidcmsg/oidc/__init__.py:51-64", "src/oidcmsg/message.py:482-560"]}
{"id": "C168", "title": "the indentation asked of to_json() changes nothing but the looks", "statement": "Whatever indentation is asked for (none, any number, also zero or a negative one), to_json() of a message raises exactly what it raises without indentation, and its text is read, by json.loads as by from_json() of any class, as the same content as the text without indentation.", "quantifier": "all messages of all classes, all indentations that are numbers; all texts, lone surrogates included", "why_tests_cant": "no test uses the indentation", "anchors": ["src/oidcmsg/message.py:443-466"]}
{"id": "C169", "title": "the text of the SQL storage is JSON of its rows", "statement": "str() of the storage never raises; json.loads of it gives a list of rows of four columns, and exactly the keys that are there, after any history of set, update, delete and flush, have a row, with their last value.", "quantifier": "all histories of one session from an empty table whose keys and data are Unicode texts", "why_tests_cant": "the tests do not look at the text", "anchors": ["src/oidcmsg/storage/absqlalchemy.py:60-76"]}
{"id": "C170", "title": "a skew that is no number is a TypeError", "statement": "If an ID Token, a logout token or a JSON Web Token with a time in it is accepted by verify(), then the same call with a skew (for ID Tokens also a nonce_storage_time) that is no number (None, a text, a list, ...) raises TypeError: it neither accepts the token nor reports it as expired or not yet valid. A JSON Web Token without times does not look at the skew.", "quantifier": "all tokens, environments, keyword arguments and all values that are no numbers", "why_tests_cant": "the tests give numbers only; there is no end to what a caller can give instead", "anchors": ["src/oidcmsg/oidc/__init__.py:IdToken.verify", "src/oidcmsg/oidc/__init__.py:JsonWebToken.verify", "src/oidcmsg/oidc/session.py:LogoutToken.verify"]}
{"id": "C171", "title": "what was read from JSON is written as JSON that is read as the same", "statement": "Whatever was read from a JSON text of Unicode characters, with any layout, escapes (also of lone surrogates), repeated members and numbers, can be written as JSON again, with or without indentation, and is read back as exactly the same value. Every finite floating-point number can be written, is read back as that number, and is written with as few digits as any decimal number that is read as it.", "quantifier": "all JSON texts of Unicode characters (numbers below the largest floating-point number), all indentations, all finite binary64 numbers", "why_tests_cant": "the texts and numbers are unbounded; errors in the last digit of a number occur for few numbers", "anchors": ["src/oidcmsg/message.py:454", "src/oidcmsg/message.py:557", "src/oidcmsg/storage/converter.py:JSON", "src/oidcmsg/message.py:898-903"]}
{"id": "C172", "title": "skews may be fractions of a second", "statement": "With a skew that is not a whole number the same holds as for whole ones (C35, C136, C137), although times are then computed with in floating point: whatever has an ID Token is accepted at every earlier time and with every larger skew, logout tokens at every later time and with every larger skew, also when one skew is whole and the other is not; JSON Web Tokens without nbf are accepted with every larger skew, all of them are accepted without interruption and, once accepted, at least until exp and the skew have passed by exact arithmetic.", "quantifier": "all messages, times and skews (whole and fractional) of less than 2^52 seconds, environments whose key jar does not look at the skew", "why_tests_cant": "the order of all rounded sums", "anchors": ["src/oidcmsg/oidc/__init__.py:IdToken.verify", "src/oidcmsg/oidc/__init__.py:JsonWebToken.verify", "src/oidcmsg/oidc/session.py:LogoutToken.verify"]}
{"id": "C173", "title": "a key of one process in a shared SQL table", "statement": "Several processes or threads, each with its session, may work on one table at the same time, their statements in any order. A key that only one of them writes holds there one row with the value last set or updated, or none after delete, as in a dict, whatever the others do to other keys meanwhile; everybody reads this value once set, update or flush has ended the transaction, and until then, after deletions and in the middle of any operation, the others read what they read before; so does everybody if the process dies then. Nobody ever reads a value that was not written under the key. A session that is alone behaves as in C72 and C117.", "quantifier": "all numbers of sessions, all operations, all interleavings of their statements", "why_tests_cant": "interleavings of sessions cannot be enumerated and the tests have one session", "anchors": ["src/oidcmsg/storage/absqlalchemy.py:AbstractStorageSQLAlchemy.set", "src/oidcmsg/storage/absqlalchemy.py:AbstractStorageSQLAlchemy.update", "src/oidcmsg/storage/absqlalchemy.py:AbstractStorageSQLAlchemy.delete", "src/oidcmsg/storage/absqlalchemy.py:AbstractStorageSQLAlchemy.get", "src/oidcmsg/storage/absqlalchemy.py:AbstractStorageSQLAlchemy.flush"]}
{"id": "C174", "title": "concurrent sets of one key leave one row", "statement": "When several processes or threads set the same key of an SQL table, there is one row for it afterwards, with the value that was set last.", "quantifier": "all histories of all sessions, all interleavings of their statements", "why_tests_cant": "it depends on the order in which statements of different sessions reach the database", "anchors": ["src/oidcmsg/storage/absqlalchemy.py:AbstractStorageSQLAlchemy.set"]}
{"id": "C175", "title": "add_duration never adds a fraction of a second", "statement": "Seconds with a fraction are read by parse_duration(), as the floating point number nearest to the text, but add_duration() does not return for them: with unsigned numbers it raises TypeError, or ValueError if the seconds are infinite or not a number, or OverflowError if the year is too large, for every time.", "quantifier": "all times, all durations with seconds that only float() accepts", "why_tests_cant": "all texts and times", "anchors": ["src/oidcmsg/time_util.py:add_duration", "src/oidcmsg/time_util.py:parse_duration", "src/oidcmsg/time_util.py:f_quotient"]}
{"id": "C176", "title": "which labels keep views apart", "statement": "A labelled store keeps the value of a key under two underscores, the label, two underscores and the key; without a label under the key itself. Every key of a view is also a key of another view exactly if the labels are equal, or the first label is the other one followed by one underscore, or by two underscores and anything, or the other view has no label. In all other cases neither rendered label is the start of the other.", "quantifier": "all pairs of labels, all keys, values and dictionaries", "why_tests_cant": "all pairs of texts", "anchors": ["src/oidcmsg/storage/extension.py:LabeledDict", "src/oidcmsg/storage/abfile.py:LabeledAbstractFileSystem"]}
{"id": "C177", "title": "views with different labels see different values", "statement": "If several views of a file storage have different labels that are not empty, every view sees what was written through it and nothing else.", "quantifier": "all labels, all histories of operations through all views", "why_tests_cant": "the tests use one label; it depends on labels and keys together", "anchors": ["src/oidcmsg/storage/abfile.py:LabeledAbstractFileSystem", "src/oidcmsg/storage/extension.py:key_label"]}
