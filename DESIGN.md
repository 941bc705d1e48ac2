# Formal model of oidcmsg in Rocq (Coq 8.16.1)

The model is written by reading `/repo` as text; nothing of the project is run.
It is a set of shallow, total Gallina functions mirroring the Python functions
branch by branch. Exceptions are values (`res A := Ok a | Err e`), functions that
mutate `self` return the new content next to the result, and outside services
(clock, crypto, key jar, hash) are record arguments (`env`) that theorems
quantify over.

## Layout (`rocq/theories`)

| directory | content |
|---|---|
| `Base/` | Python base types: code-point strings, UTF-8, percent encoding / `urlencode` / `parse_qs` |
| `Model/` | Python values (`==`, truthiness, `in`, ordering, insertion-ordered dictionaries), JSON writer and reader, and the functions of `/repo`, each definition citing file and lines |
| `Spec/` | small specifications the theorems are stated with |
| `Proofs/` | lemmas, sample environments and configurations |
| `Properties/` | only the property theorems, their concrete cases and `Print Assumptions` |

`tools/mkprops.py` writes `properties.jsonl`, `tools/mkmanifest.py` writes
`MANIFEST.json` from the theorem names and `tools/notes.json`. `seeded/LOG.jsonl`
records the mutation tests. A theorem counts as failed if its proof or that of a
lemma it rests on no longer goes through. Lines whose batch ends in "run alone"
come from runs with that one edit. In the other batches several edits were
applied together, and `theorems_failed` lists the failed theorems of the targeted
properties, so a theorem named there may have failed because of another edit of
the same batch.

## How each property is treated

* C01-C03, C19-C21 codecs: JSON text, UTF-8, percent encoding are concrete
  functions on code points; inversion lemmas by induction, then lifted to messages
  of an arbitrary parameter table under an explicit canonical-value predicate.
* C04-C11, C14, C16, C18, C22, C23: `Message` operations over an arbitrary parameter
  table and arbitrary content, induction over tables and inputs.
  C05, C06, C08, C18 are not true of the code: refutation witness + strongest true part.
* C12, C13, C15: `request`, `merge`, `__eq__`.
* C17: heap model (`Heap.v`) of list objects shared through `c_default`: refuted for list defaults,
  true of all other parameters and of lists given to an instance, in all histories. Only lists directly
  under a parameter are mutable objects, and callers use a list for one message.
* C99: the bounds on recursion in the model (`lib_n 12`, the fuel of the JSON reader) are never reached.
* C24-C28: oauth2 verify functions. C25, C27 (one point) and C28 are refuted by witness.
* C29-C34, C37-C39, C41-C43, C51-C54: `verify` functions over an arbitrary `env`
  (crypto, key jar, clock), with attacker-chosen message content.
* C34, C39, C51: times, skew and nonce storage time are any numbers; `total` and `difference` (`Spec/VerifySpec.v`) are exact for integers and rounded to
  binary64 otherwise, as in Python. Sums beyond binary64 are OutOfModel (Python: OverflowError or infinity).
* C35, C40: relational theorems on two clocks/skews (C40 refuted: nbf).
* C36: refuted for IdToken, proved for OpenIDSchema.
* C44-C50: registration, provider info, scopes, claims, birthdate, pack.
* C55-C60, C81, C82: time_util over Z; `mktime/localtime` as UTC calendar functions.
  C81 (termination of `add_duration`): the loop is a fuelled function and the
  theorems are about all amounts of fuel.
* C61-C68, C85-C88, C92: file store: state = directory (path -> content, mtime) +
  per-instance caches; histories as lists of (process, operation); crash points and
  schedules as lists of micro-steps. The invariant relates the caches, the time
  stamps and the directory to the last writes of a history.
* C69, C84: labelled views, reduced to the file store by renaming keys.
  C70, C71, C89: LabeledDict over a dictionary.
* C72-C74, C91, C117: SQL rows with session / committed copy.
* C75-C78, C83, C90: configuration, paths, names, factory.
* C101, C102: required parameters: a table of what the specifications require (`RequiredSpec.v`) against
  the tables of the code, over all messages.
* C103-C107: an honest producer and consumer (`Jose.v`, `JoseSpec.v`): what is written as a signed or
  encrypted JWT is read back and accepted; the crypto library is a record argument, what it has to do is a
  hypothesis that a toy library meets.
* C79, C80, C93-C98, C100: identity assurance: exact characterisation of the claims requests that pass, evidence
  (never accepted), time stamps and dates, ClaimsConstructor, IDAClaimsRequest.
* C108, C109: the methods of `MutableMapping` (`Mapping.v`) against an insertion-ordered abstract map (`MappingSpec.v`).
* C110-C112: choice of the method by name, texts that are no messages, error responses (`Dispatch.v`).
* C113, C114: authorization requests that are in order are accepted, alone and with the request object made of them
  (`RequestObject.v`); the JWT class of cryptojwt is a record argument, what it has to do is a hypothesis that a toy one meets.
* C115, C116: `set` and `get` of an OidcContext (`Context.v`), reduced to the histories of LabeledDict and of the file storage.
* C118, C119: `verify` on contents that differ in order only, by case analysis over all verify functions; with C01-C03
  and C113 this says what a receiver makes of what a sender wrote.
* C120: the storage that a context takes from its configuration (`Tenants.v`), and histories of processes with different
  directories; the invariant of the file storage is kept by what is done elsewhere.
* C121: `verify` applied to what it left, by case analysis over all verify functions; exceptions count as outcomes.
* C122: the sets of exceptions of the reading functions, by induction on the nesting depth of deserializers.
* C123: `verify` on contents that agree in what the class knows (`UnknownSpec.v`), by case analysis over all verify functions.
* C124: documents given as lists of members with the JSON value and the stored value (`WireSpec.v`); `wire` has one
  constructor for each pair of a declared type and a JSON form.
* C125-C127: honest tokens, made by `to_jwt` (as in C97) or by anybody whose payload is such a document (`LogoutSpec.v`).
* C128: `only_changed P d d'` relates two dictionaries with the same entries in the same order but for names in `P`
  (`FrameSpec.v`, with the list `written` of the names each class may write).
* C129: `anticipated` (`ErrorSpec.v`) are the exceptions of the library and ValueErrors; `looks_into` (`RaiseSpec.v`) lists
  the values each verify() looks into and their forms. Refuted for JSON documents; proved without tokens for messages
  with these forms and for query strings.
* C130, C131: two calls of `verify` with different keyword arguments (`ArgumentSpec.v`); `le` relates results where the stricter
  call succeeds, by case analysis over all verify functions.
* C132-C135: the parameter tables of the library (Model/Tables.v) against tables transcribed from the RFCs and OpenID specifications
  (Spec/ProtocolSpec.v): types, enumerated values, required parameters, defaults. The specification tables do not mention the library's;
  where they differ the difference is a `_refuted` theorem.
* C136 - C138: Properties/Clock.v, spec Spec/ClockSpec.v. `clock E t` is the environment at another time; the
  oracles (keys, signatures, decryption) are the same at all times.  C137 needs a key jar that does not look at the
  argument skew (`keys_skewless`): verify_id_token hands it on to get_jwt_verify_keys.
* C139, C140: Properties/Flow.v, spec Spec/FlowSpec.v (the messages of a flow and the arguments of the client).  The two
  sides agree on signatures and keys as in C106 (`partners`).  Scopes are words and do not contain offline_access, which
  takes a prompt (C41).
* C141 - C143: Properties/Binding.v (pairs of runs).  C141 takes the contents of C01, C02 and C103.  C142 and C143 are about
  tokens that are not encrypted.
* C144 - C147: Properties/RequestRules.v.  Rules that the specifications have for request objects; most are refuted, with
  witnesses in the environment `rr` of Proofs/RequestRuleSamples.v (two clients with a key each).
* C148, C149: Properties/Condition.v, tables of rules in Spec/ConditionSpec.v; every rule that the code does not enforce is refuted
  by a message computed in Proofs/ConditionSamples.v.
* C150: the texts are described by spec predicates (`moment_text`, `fraction_text`, `zone_offset`, `date_text`), the instant by the fields that gmtime gives it (`shows`); the proof shows that a text has one reading only, so that the first match of the regular expression is the only one.
* C151: the grammar is an inductive definition of its own (`Spec/GrammarSpec.v`: `reads`, `elements`, `members`, `chars`), without fuel and positions; the theorem says that the reader decides it. `Spec/FloatSpec.v` says by rational numbers what a decimal fraction is rounded to (`rounds`); that nothing is nearer is a theorem of its own.
* C152: `Spec/QueryTextSpec.v` defines UTF-8 (RFC 3629), percent-encoding and the fields without reference to the model; the proofs decompose a text into its runs of ASCII characters, as urllib does.
* C153: metadata in order are described by `Spec/DiscoverySpec.v`; the theorems compose acceptance (the converse of C46, C44, C45) with the JSON round trip and C119.
* C154: the assertion and the request are written down in `Spec/AssertionSpec.v` (RFC 7523); the theorems compose C103 (signing and reading), C39 (the rules) and the query round trip.
* C155: the effect of add_non_standard is given parameter by parameter; verify() by C123.
* C156: `Spec/ContextStorageSpec.v` says what a section is and what a storage is told.
* C157: `Spec/NumeralSpec.v` is the grammar of numbers of the Python reference; both directions are proved.
* C158: the grammar of durations as relation between texts and numbers; both directions are proved.
* C159: the writers and readers of a class are enumerated in `Spec/SerializerSpec.v`; the proof reduces them to the round trips of C01-C03 at one level less of nesting.
* C160: cryptojwt's key jars are a record of functions `jars`; the laws `holds` and `moves` in `Spec/KeyContextSpec.v` are hypotheses, met by the toy key jar of the example.
* C161: `import_module` and `getattr` are arguments of `importer`; an `ImportError` is whatever error the argument gives.
* C162: formats are named by texts here, so that every name is covered; `deserialize` of `Dispatch.v` is used.
* C163: the exceptions of the crypto library and the key jar enter as `from_outside` (`Spec/TokenErrorSpec.v`), an inductive predicate over the oracles; nothing is assumed about them. Complements C129, which is about messages without tokens.
* C164: `Spec/RequestErrorSpec.v` says when a request object can be read (through encryption) and which exceptions come from the crypto library; the theorems cover requests read from a query, read from JSON, and JWT secured or pushed requests with any content; `C164_conditions` shows that each condition is needed. Together with C163 this leaves out messages with encrypted ID Tokens; C166 is about the classes of identity assurance.
* C165: `Proofs/SentLemmas.v` shows by computation that what the tables demand and fill in is among what the specifications require, and composes C134 with the round trips; receivers of token exchanges, introspections, refreshes, password grants and so on get what was sent.
* C166: `shaped` (`Spec/ClaimsErrorSpec.v`) says by recursion over the tables which parts of a request are objects, lists or texts; nothing else about the request is assumed. `C166_claims` goes through the construction of VerifiedClaimsRequest from JSON.
* C167: `Model/Exceptions.v` has the class tables of exception.py, oidc, time_util, storage.init and of Python; `derived` is their inductive closure; C129 and C164 are restated with it.
* C168: `Model/Layout.v` (`json.dumps` with `indent`, `to_json(lev, indent)`); the proof prints with arbitrary white space after
  brackets and commas and shows that the reader does not see it, for every text Python can hold; needs that `to_dict` makes
  texts of code points from texts of code points (`Proofs/LayoutMore.v`).
* C169: `__str__` of the SQL storage (`sql_str`), composed of C168 and C72.  `iter()` of the storage is not modelled: `__iter__`
  returns a Query, which is no iterator, so that it raises a TypeError always.
* C170: two calls that differ in one keyword argument (`with_arg`).
* C171: reading is followed through the grammar of C151; `clean` (proofs only) is what can come out of it. Writing numbers (`float_repr` in `Model/Float.v`) searches the number of digits; the theorems say that 17 are enough and that fewer digits than are written are never enough. The writer was compared with Python's repr for 298 numbers.
* C172: rounding to binary64 keeps the order (from `rounds_nearest`, C151); below 2^52 seconds whole numbers are binary64 numbers themselves, so that sums of whole numbers are rounded ones too.
* C173: the sessions as lists of statements over a shared table, each with the changes of its open transaction; a ghost function from row numbers to keys shows that the changes of others never touch the rows of the key. C173_one ties this to Model/Sql.v.
* C174: refuted by an interleaving of two sets (C174_both_refuted); C174_alone_partial is what is left.
* C175: `float_value` (float() of decimal texts, rounded as in C151), `floor_div` (`//` of CPython, compared with Python 3.11 for 120 random numbers), `add_fraction`; the value of the seconds matters for the carry, and with it for the end of the loop. C175_year gives the year the loop reaches by counting days (Proofs/SecondsYear.v), for sums below 2^53 seconds.
* C176: the text of rendered labels and the exact condition (`inside`, Spec/LabelSpec.v) under which views share keys; supplies the hypothesis `apart` of C69 and C84.
* C177: refuted by the labels 'a' and 'a__b'; C177_views_partial (all labels that are not `inside` each other, C177_clean_partial: those without underscores) follows from C69 and C176, C177_shared (all others) from C62.
* C84 (by labels): C84_never_counts, for every label with a character that is not kept in file names the length is 0; quoting is followed character by character, `%` being the hard case because it stays the first character of its code.
* C75 (empty entries): `truthy` is tied to the truth value testing of the Python reference (Spec/TruthSpec.v), and C75 restated with it.
* C62 (line ends): `newlines` and `strip` are tied to relations that follow the Python documentation (Spec/NewlineSpec.v); a systematic mutant of the first survived before.

Properties the code does not have are kept in view in `properties.jsonl`, carry a
theorem `..._refuted` with a concrete witness (or, where the code never has the
property, for all inputs) and a theorem `..._partial` with the strongest true part,
and are marked `partial` in `MANIFEST.json`. The notes there say which and why.

## What is modelled

| file in `/repo/src/oidcmsg` | model |
|---|---|
| `message.py` | `Message.v`, `Heap.v` (shared lists), `Pspec.v`, `Json.v`, `Float.v` (binary64 numbers in JSON), `Value.v`, `Base/Percent.v`; signing and encryption inside `from_jwt` are oracles; `Jose.v` (`to_jwt`, `to_jwe`, `from_jwe`), `Serializers.v` (the public `..._ser` functions here and in `oidc`), `Mapping.v` (inherited mapping methods), `Dispatch.v` (`serialize`, `deserialize`), `Layout.v` (`to_json` with indentation) |
| `exception.py`, `oauth2/__init__.py`, `oauth2/device_authorization.py`, `oidc/__init__.py`, `oidc/session.py` | `Exceptions.v` (class hierarchy), `Cls.v` (class names), `Tables.v` (parameter tables, defaults, kinds), `Env.v` (oracles), `Verify.v` (verify functions, pack, factories), `Dispatch.v` (`is_error_message`), `RequestObject.v` (`make_openid_request`) |
| `oidc/identity_assurance.py` | `Tables.v`, `IdentityAssurance.v` (checks, ClaimsConstructor), `Calendar.v` (time stamps, in UTC) |
| `time_util.py` | `TimeUtil.v` |
| `storage/abfile.py`, `extension.py`, `absqlalchemy.py`, `converter.py` | `FileStore.v`, `Labeled.v`, `Sql.v`, `Sessions.v` (several sessions), `Layout.v` (`__str__`), `Converter.v` |
| `storage/init.py`, `storage/utils.py`, `context.py`, `__init__.py` | `Config.v`, `Context.v` (`set`, `get` of a context), `Tenants.v` (choice of its storage and directory), `KeyContext.v` (the key jar and the boxes; cryptojwt's key jars are a parameter), `Names.v` (classes by name) |

Not modelled: logging, the base class of the storages (`storage/__init__.py`; its methods only raise, and only `delete`, `synch` and `__call__` of
the file storage or its views are inherited), `__str__`/`__repr__` texts (except of the SQL storage), the classes of cryptojwt (signing,
encryption, key jars are oracles of `env` without any assumption but those written
in a theorem), sqlalchemy and the database (rows of one table; READ COMMITTED transactions without locks in `Sessions.v`), importing and constructing a storage
handler, regular expressions of the standard library beyond the ones the code uses,
infinities, NaN and minus zero, time zones other than UTC,
locale dependent formats, file permissions, symbolic links, directories inside the
storage directory (`flat`), running out of disc space.

Simplifications of the storage group: file modification times are a clock that ticks
with every operation (C66's hypothesis); a lock is held by one process at a time, so
operations are atomic except where a property is about interleavings (C67: micro-steps)
or crashes (C65: cut points); the order of `os.listdir` is newest first and no
theorem depends on it.

## Tests of the model

`theories/Tests/` holds the repository's own tests, translated: 220 of the 221 tests run on the
model (all but `test_to_jwe`). `tools/testcases.py` lists them, `tools/mktests.py` writes the
Coq files. They are examples that show the model behaving as the authors of the code
expect, not proofs of any property. `Tests/TestKit.v` has the toy signer they use.

## Trusted base

* Coq's kernel (8.16.1), including `vm_compute`, which the examples and witnesses use.
* Axioms: none. `Print Assumptions` below every property theorem answers "Closed under
  the global context". `coqchk -o` additionally lists the axioms of `Coq.ssr.ssrunder`,
  which library files pull in and which no theorem depends on.
* The reading of the Python text. Simplifications are stated in the comments of the
  definitions.
