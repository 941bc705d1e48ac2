{
 "C11": "Refuted: the message of the exception is made by to_dict, whose exception comes first if the message has no dictionary form.",
 "C01": "canon is the canonical-value predicate, for library and user defined tables. covers_defaults: a fresh instance carries the class defaults, so they have to be among the parameters (C01_default_back shows why). Equality is of the parameter/value mapping. Identity-assurance time stamps (C95) are left out.",
 "C02": "urlable lists the values with an urlencoded form that reads back: non-empty texts, string lists, JSON documents, messages with a JSON form; integers and booleans come back as texts (C06).",
 "C03": "Same predicates as C01.",
 "C04": "verify_base is a pure function, so that verify() does not change the message is part of the model. Subclasses' own checks are separate properties.",
 "C05": "Refuted in full (a dict given for a string list is stored as is; identity-assurance time stamps are declared str and hold int). Partial: all other plain parameters.",
 "C06": "Refuted in full (from_urlencoded never converts integers or booleans). Partial: strings and string lists.",
 "C07": "The exception is TooManyValues unless another faulty parameter is met first; in each case the query is rejected.",
 "C08": "Refuted in full (JSON text of an empty string in a JSON parameter). Partial: tables without JSON-text parameters.",
 "C15": "wfv: no dictionary has a key twice, which every Python dictionary satisfies.",
 "C17": "Refuted: list defaults of a class are shared by its instances (RegistrationRequest, ProviderConfigurationResponse). Partial: parameters without a list default, and lists given to the instance. Only lists directly under a parameter are objects; callers use a list for one message.",
 "C18": "Refuted in full: entries before the faulty one stay stored. Partial: what a failing from_dict may change.",
 "C19": "Floating-point numbers are kept as rational numbers in lowest terms; infinities, NaN and the sign of zero are outside the statement.",
 "C24": "Descriptions that are strings; other value types are covered by response_ok (characters are compared element by element).",
 "C25": "Refuted in full (e.g. a full stop). Partial: which of the permitted descriptions are accepted.",
 "C27": "Refuted in one point: with request_uri only, a forged __verified_request stays. The other clauses are proved in full.",
 "C28": "Refuted in full: neither class checks its table. Partial: where the two parameters come from.",
 "C29": "Signature verification itself is the oracle e_sig; not_encrypted: the text is not taken for a JWE by from_jwt.",
 "C36": "Refuted for IdToken (the inherited answer False is ignored); proved for UserInfo (OpenIDSchema and the classes derived from it).",
 "C38": "Refuted in full: the slot is called verified_id_token_hint but __verified_id_token_hint is cleared. Partial: a hint is decoded and checked; possible sources of the slot.",
 "C40": "Refuted in full (nbf is compared with now-skew). Partial: tokens without nbf.",
 "C43": "Refuted in full (request object without redirect_uri and client_id). Partial: response_type and scope always, all parameters if no request object is used.",
 "C46": "Refuted in one point (an issuer ending in '?' or '#'); all the other clauses are proved.",
 "C47": "Refuted for '!' (the character set has the type set in its place). Partial: exact for the other characters.",
 "C48": "values must be a list for the exact form; soundness holds for all specifications.",
 "C49": "Refuted in full (2000-1-1 is accepted). Partial: all well-formed dates are accepted and exactly the strptime readings are. ASCII texts.",
 "C50": "lifetime an integer; left_hash returns text or None (text_hash).",
 "C52": "Refuted in full (alg none and plain JSON are accepted). Partial: proved if allowed_sign_alg is given, and whenever the token is signed.",
 "C55": "Refuted for intervals ending in 0 (f_quotient(-5,-5,0) falls back to the two-argument form); proved for all others. Integers only.",
 "C56": "Refuted: with minutes and no months ('PT5M') TimeUtilError is raised, as the months are looked for before the T. Partial: every text of non-negative whole numbers that has months or has no minutes. CPython's limit of 4300 digits per number is ignored.",
 "C57": "Refuted: a duration without days adds a day, days are clipped to the month's length, hours are reduced modulo 60. Partial: 1 to month-length days, less than 60 hours, existing date. The local time zone is taken to be UTC.",
 "C58": "Whole numbers; for fractional seconds see C175.",
 "C59": "Instants the C library can represent; text points as rendered with four-digit years 1-9999.",
 "C60": "Proved for the four-digit format; refuted for instant() in years below 1000, where the C library does not pad the year.",
 "C61": "Keys: all plain ones (not '', '.', '..', not ending in '.lock') for set, get, contains; deletion for keys that are their own file names. Values that can be written and read back.",
 "C62": "Refuted for texts with a carriage return (text mode turns it into a line feed); C62_restart states exactly what is read in all cases.",
 "C63": "Refuted in full: del does not convert the key, so 'a b' stays. Partial: keys that are their own file names.",
 "C64": "Refuted in full: del '../x' removes and creates files outside. Partial: all histories that delete no key with a slash.",
 "C65": "Refuted in full: open(...,'w') truncates before the value is serialized. Partial: crash before opening or after writing; key errors.",
 "C66": "The writer itself gets the value as given (cache), others its converted text.",
 "C67": "Refuted in full by a schedule: the loser keeps its own value if both take the modification time after both writes. Partial: what each process gets, for every schedule of any number of processes.",
 "C68": "Refuted in full: the modification time is remembered before the file is parsed. Partial: keys without a cached value.",
 "C69": "In any order of operations of any number of views; the length is C84.",
 "C70": "danswers covers set, get, item, del, contains, keys; update is C71, iteration C89.",
 "C71": "Refuted for every label, content and dictionary.",
 "C72": "Single session, rows as a list.",
 "C73": "Refuted in full: data cells and row numbers are found as well. Partial: exact characterisation for texts.",
 "C74": "Refuted in full: delete does not commit. Partial: deletions followed by a set or update.",
 "C75": "Instantiating the handler class (importer) is not modelled; the class name and its arguments are the result.",
 "C76": "Refuted for paths of dots that no slash follows ('.' gives '/'); proved for all others.",
 "C78": "A constructor raising AttributeError makes the factory return None as well; stated in the theorem.",
 "C79": "Refuted in full: plain values (a number for a text claim) pass. Partial: exact characterisation of the requests that pass.",
 "C80": "Refuted for every content: the subclasses inherit verify and build themselves anew without end. Partial: unknown and missing types.",
 "C81": "Refuted: int() accepts white space before a minus sign, days fall below 1 and the loop never ends.",
 "C82": "total_seconds() is taken to be exact.",
 "C83": "Refuted for every relative path: os is not imported in oidcmsg/__init__.py.",
 "C84": "False for every label that needs quoting: the length is then 0 (C84_never_counts). Proved for labels that are their own file names.",
 "C85": "Refuted for every directory with a file whose name has at least three characters.",
 "C86": "Refuted by a history of two processes.",
 "C87": "Refuted for keys that end in '.lock'. Partial: plain keys.",
 "C88": "Refuted for the empty key (and '.', '..'). Partial: plain keys.",
 "C89": "Refuted for every non-empty label and every non-empty LabeledDict.",
 "C93": "UTC. Refuted for 0 (written as the current time) and for years below 1000. Partial: all others.",
 "C95": "Refuted for every time stamp text given in a dictionary or JSON object in the prescribed form. C95_query_partial: one given in a query string is kept as a number and can be written; years 1000-9999 and not the epoch, for which time_stamp_ser writes the current time.",
 "C97": "Refuted for every text, number, truth value and list claim.",
 "C98": "Refuted for lists and for verified_claims inside of userinfo. Partial: one object at the top level.",
 "C99": "The recursion limit of CPython is ignored: very deep JSON gives RecursionError there.",
 "C100": "UTC offsets in the text; the fields of an instant are those of gmtime (C60_calendar).",
 "C101": "Refuted for every request: verify() returns None, and the table inherited from the authorization code request demands code and redirect_uri. Partial: exact characterisation of the outcomes.",
 "C102": "Refuted for the parameters of spec_required_more (username and password, error, events, id_token). Partial: all others, for 29 classes.",
 "C103": "For messages with canonical values (canon of RoundTripSpec.v) and a library that parses as signed what it signed (reads_signed).",
 "C104": "The decryption oracle inverts the encryption (decrypts, decryptable).",
 "C115": "Refuted for storage in a table: AbstractStorageSQLAlchemy has no __getitem__, get() is a TypeError. Proved for storage in memory and in files.",
 "C105": "hashable: left_hash gives a text for access_token and code (it gives None for an unknown hash).",
 "C106": "The hypotheses say what honest means: honest_claims, meant_for, partners, msg_fits; C29 and C30 have the converse direction. alg none is excluded.",
 "C109": "Refuted: setdefault of MutableMapping returns its argument, __setitem__ stores a converted value (a text for a list parameter) or nothing (an empty list). Partial: true of parameters that are there, of undeclared ones and of values of the declared kind.",
 "C107": "Refuted: verify_id_token calls jws_factory on the outer text first and raises ValueError if it is no JWS. Partial: all such texts are refused.",
 "C118": "The values themselves are equal, also in the order of nested dictionaries. Evidence never returns (C80); which exception it raises depends on the order of its parameters, so for it only that both raise is claimed.",
 "C119": "Composition of C01-C03 and C118, and of these with C113; canon, urlable, covers_defaults as in C01, C02.",
 "C120": "Refuted for configurations without the placeholder {issuer}: add_issuer has no effect on AbstractFileSystem then. Partial: directories that end in /{issuer}; issuers other than '.' and '..', legal operations as in C61, directories that exist and are empty at the start.",
 "C121": "Refuted: verify() of the classes that take a request object removes it, so a second verify() refuses the message (C121_secured) or drops the verified request object (C121_forgotten). Partial: all messages without a request object.",
 "C122": "Refuted: a parameter that holds a message raises AttributeError if its JSON text is no object (claims=%5B%5D in an authorization request). Partial: the exact lists of exceptions; C122_plain: the claim for classes without such parameters. OutOfModel stands for what is not modelled, e.g. numbers beyond the range of binary64.",
 "C123": "Refuted for six names that verify() reads though the class does not declare them (also_read), and for parameters that are null (OpenIDSchema.verify returns False). Partial: all other names and values; language tags of declared parameters count as declared. For OpenID Connect authorization requests the payloads of request objects are taken to be JSON.",
 "C124": "Refuted: parameters of JSON type (events of a logout token, registration, place_of_birth) are written as a text. Partial: documents whose members have types with an inverse serializer (wire); C124_read for the other usual forms.",
 "C125": "reads_signed and can_check say what is asked of the crypto library and the key jar.",
 "C126": "Same assumptions on the crypto library as in C125; document tolerated: the forms of JSON values that are read, C124.",
 "C127": "Refuted: expired hints raise EXPError. Partial: current hints are accepted; accepted hints have not expired.",
 "C128": "Refuted for refused messages: an OpenID Connect authorization request whose request object breaks a rule has already been replaced. Partial: the frame for every class and outcome (may_write).",
 "C129": "Refuted: null for error_description, birthdate or exp, an nbf that is a text, a provider without the scope openid, a token without alg and a request object that is no JSON object raise TypeErrors, KeyErrors and AttributeErrors. Partial: messages without tokens whose values have the forms their class looks for (looks_into); query strings of all classes that do not come in tokens have them. Missing: messages with tokens, identity assurance.",
 "C130": "keys_blind: get_jwt_verify_keys does not look at client_id, allowed_sign_alg and allow_sign_alg_none; C130_any_key_jar does without it.",
 "C131": "uses lists the arguments per class; the key jar itself counts as an argument for the classes of uses_jar.",
 "C132": "C132_read_partial: documents with the parameters of the specifications (transcribed in Spec/ProtocolSpec.v), each of its type there, are read with these values. C132_typed_partial: whatever document was read, a parameter of plain type has a value of the type of the specification or null (documents that give a dictionary for a list are left out, see C05). Refuted for an ID Token's sub_jwk (an object) and nationalities (an array), which are refused whatever their value (C132_refused_refuted), and for parameters that the library names otherwise or not at all, which take any value (C132_untyped_refuted; e.g. backchannel_logout_session_required).",
 "C133": "C133_values_partial: all messages of the classes with enumerated parameters and without request object or hint. Refuted for eight error codes (C133_values_refuted), e.g. account_selection_required: the library has session_selection_required.",
 "C134": "C134_demands_partial: 25 classes of messages for which the specification says no more than types, required parameters and enumerated values; an error description has to have the characters that verify() takes (C24). Refuted (C134_demands_refuted): grant_types_supported, links and redirect_uri are demanded although optional.",
 "C135": "C135_only_partial, C135_filled_partial: exactly the defaults spec_defaults and other_defaults are filled in. Refuted (C135_defaults_refuted): require_request_uri_registration is True where the specification has false, the grant type of a device token request is authorization_code, and six defaults of the specification are not filled in.",
 "C142": "An ID Token without nonce is accepted whatever nonce the client expects: the nonce is compared only if both are there (oidc/__init__.py:828-830), although OpenID Connect Core 3.1.3.7 (11) demands the claim if a nonce was sent. Issuer, client and claims are proved; the nonce for tokens that have one.",
 "C144": "The keys are those of the client named in the request, but parameters of the request object that differ from the request are only logged (oidc/__init__.py:462-467) and replace it, client_id included: a client can make the request of another client with its own key.",
 "C145": "A JWS with an algorithm other than none is verified. Objects with alg none and plain JSON texts are taken as they are; the argument alg has no effect, from_jwt looks at sigalg (message.py:515-560).",
 "C146": "exp, nbf and iat of request objects are not looked at.",
 "C147": "A parameter request in the request object stays in the message.",
 "C148": "Enforced: the nine rules in `together`. Each of the rules in together_not_enforced and apart_not_enforced is refuted by an accepted message that breaks it.",
 "C149": "Holds where the class requires the claim (ID Token iss/aud, AuthnToken, LogoutToken). For nonce of ID Tokens, JsonWebToken iss/aud and iss/client_id of authorization responses the comparison is skipped if the claim is absent; refuted for each.",
 "C150": "Both directions. Texts with other than ASCII characters are outside the model (strptime takes other decimal digits too), as are fractions of a second in the zone offset.",
 "C151": "Both directions, for all texts. Numbers with fraction or exponent are rounded to binary64 (round half to even), for all decimal texts; those that are infinite there, NaN and Infinity are outside the model (never Ok there), minus zero is zero; so are the limits of the interpreter (depth of recursion, 4300 digits).",
 "C152": "The grammar is an inductive definition of its own; every text either has a meaning by it, and is read as that, or shows U+FFFD.",
 "C153": "The converse of C46 for well-formed issuers, and end-to-end through JSON. Scope names with an exclamation mark are excluded (C47: they are refused).",
 "C154": "End-to-end over C39 and C103. An assertion with exp = 0 counts as one without exp and is refused (hypothesis of assertion_ok).",
 "C155": "verify() is covered for extras with ordinary values (neither null nor messages) that the class of msg1 does not look at; the others are the exceptions of C123.",
 "C156": "What the storage class does with its configuration is C120; importing it is not modelled.",
 "C157": "The value of a text as a floating point number is not modelled, only whether it is one; the limit of 4300 digits of newer Pythons is left out.",
 "C158": "PT5M is no duration by this grammar: its M is taken for the months.",
 "C159": "Contents as for C01-C03 (canon / urlable). str() of containers in urlencode only for printable ASCII texts; claims_ser of a message as query text below the top level is left out.",
 "C160": "Key jars are cryptojwt's; they enter as a record of functions, and what is assumed of them (holds, moves) is in the theorems; Proofs/KeyContextSamples.v has an instance.",
 "C161": "importlib.import_module and getattr are Python's; they enter as functions without any assumption.",
 "C162": "Contents as for C01 and C02 (canon).",
 "C163": "The message has no request object; encrypted tokens are left out. C163_conditions shows that the other conditions are needed.",
 "C165": "Composition of C134 with C01-C03; the parameters with defaults and the required ones of the tables are all among those of the specification, so no further hypothesis is needed. canon, urlable as in C01, C02.",
 "C166": "Completes C129 and C79 for the classes of identity assurance; Evidence and its subclasses never return from verify() (C80).",
 "C167": "Refuted for UnSupported, InvalidRedirectUri, MissingPage and ModificationForbidden, which are derived from Exception (no code of the library raises them). The other parts hold; conditions on messages as in C129, C164.",
 "C168": "Every layout of one general printer is read alike (Proofs/LayoutLemmas.v).",
 "C169": "Columns are those of db_setup.py with created NULL (Model/Sql.v).",
 "C170": "Found by mutation of py_sub: no theorem said what a skew of the wrong type gives.",
 "C171": "Numbers that Python reads as infinity are outside the model. That the texts are of Unicode characters is needed (C171_surrogates).",
 "C34": "Numbers are Python's: whole ones are exact, sums with a floating-point number are rounded to binary64 (C151); a sum beyond that range (OverflowError or infinity) counts as not accepted.",
 "C39": "Numbers are Python's: whole ones are exact, sums with a floating-point number are rounded to binary64 (C151); a sum beyond that range (OverflowError or infinity) counts as not accepted.",
 "C51": "Numbers are Python's: whole ones are exact, sums with a floating-point number are rounded to binary64 (C151); a sum beyond that range (OverflowError or infinity) counts as not accepted.",
 "C35": "For skews that are whole numbers of seconds: with a fractional one times beyond the range of binary64 cannot be computed with.",
 "C136": "For skews that are whole numbers of seconds: with a fractional one times beyond the range of binary64 cannot be computed with.",
 "C138": "For skews that are whole numbers of seconds: with a fractional one times beyond the range of binary64 cannot be computed with.",
 "C172": "Beyond 2^52 seconds a sum may be rounded to the other side, or overflow.",
 "C173": "For databases with READ COMMITTED transactions; waiting for locks only removes interleavings. Deadlocks and serialization errors are not modelled.",
 "C174": "False: set() deletes, then inserts, and the owner column is not unique, so that two sets of a new key that overlap leave two rows and get returns the first; proved if no other transaction is open during set(), which also mends the two rows.",
 "C175": "time.mktime() of Python 3.11 takes integers only. With a minus after white space the loop need not end (C81).",
 "C177": "False: the views labelled 'a' and 'a__b' share files (C177_refuted, and C177_shared for every pair of labels as in C176); proved for all other labels, among them different labels without underscores."
}
