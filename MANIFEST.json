{
 "claims": [
  {
   "property": "C01",
   "status": "proved",
   "theorems": [
    "C01_json_round_trip",
    "C01_default_back"
   ],
   "note": "canon is the canonical-value predicate, for library and user defined tables. covers_defaults: a fresh instance carries the class defaults, so they have to be among the parameters (C01_default_back shows why). Equality is of the parameter/value mapping. Identity-assurance time stamps (C95) are left out."
  },
  {
   "property": "C02",
   "status": "proved",
   "theorems": [
    "C02_url_round_trip"
   ],
   "note": "urlable lists the values with an urlencoded form that reads back: non-empty texts, string lists, JSON documents, messages with a JSON form; integers and booleans come back as texts (C06)."
  },
  {
   "property": "C03",
   "status": "proved",
   "theorems": [
    "C03_dict_round_trip"
   ],
   "note": "Same predicates as C01."
  },
  {
   "property": "C04",
   "status": "proved",
   "theorems": [
    "C04_verify_exact"
   ],
   "note": "verify_base is a pure function, so that verify() does not change the message is part of the model. Subclasses' own checks are separate properties."
  },
  {
   "property": "C05",
   "status": "partial",
   "theorems": [
    "C05_refuted",
    "C05_declared_types_partial",
    "C05_library_coverage_partial"
   ],
   "note": "Refuted in full (a dict given for a string list is stored as is; identity-assurance time stamps are declared str and hold int). Partial: all other plain parameters."
  },
  {
   "property": "C06",
   "status": "partial",
   "theorems": [
    "C06_refuted",
    "C06_urlencoded_types_partial"
   ],
   "note": "Refuted in full (from_urlencoded never converts integers or booleans). Partial: strings and string lists."
  },
  {
   "property": "C07",
   "status": "proved",
   "theorems": [
    "C07_duplicates_rejected"
   ],
   "note": "The exception is TooManyValues unless another faulty parameter is met first; in each case the query is rejected."
  },
  {
   "property": "C08",
   "status": "partial",
   "theorems": [
    "C08_refuted",
    "C08_no_blanks_partial",
    "C08_library_defaults"
   ],
   "note": "Refuted in full (JSON text of an empty string in a JSON parameter). Partial: tables without JSON-text parameters."
  },
  {
   "property": "C09",
   "status": "proved",
   "theorems": [
    "C09_entries_independent",
    "C09_outcome",
    "C09_prior_content"
   ],
   "note": ""
  },
  {
   "property": "C10",
   "status": "proved",
   "theorems": [
    "C10_from_dict",
    "C10_construct",
    "C10_extra"
   ],
   "note": ""
  },
  {
   "property": "C11",
   "status": "partial",
   "theorems": [
    "C11_incomplete_refused_partial",
    "C11_no_query_partial",
    "C11_exception_refuted"
   ],
   "note": "Refuted: the message of the exception is made by to_dict, whose exception comes first if the message has no dictionary form."
  },
  {
   "property": "C12",
   "status": "proved",
   "theorems": [
    "C12_request",
    "C12_fragment",
    "C12_error"
   ],
   "note": ""
  },
  {
   "property": "C13",
   "status": "proved",
   "theorems": [
    "C13_strict",
    "C13_lax",
    "C13_whitelist"
   ],
   "note": ""
  },
  {
   "property": "C14",
   "status": "proved",
   "theorems": [
    "C14_weed",
    "C14_extra",
    "C14_rm_blanks",
    "C14_only_extras",
    "C14_idempotent"
   ],
   "note": ""
  },
  {
   "property": "C15",
   "status": "proved",
   "theorems": [
    "C15_reflexive",
    "C15_symmetric",
    "C15_transitive",
    "C15_content",
    "C15_classes"
   ],
   "note": "wfv: no dictionary has a key twice, which every Python dictionary satisfies."
  },
  {
   "property": "C16",
   "status": "proved",
   "theorems": [
    "C16_messages_are_maps"
   ],
   "note": ""
  },
  {
   "property": "C17",
   "status": "partial",
   "theorems": [
    "C17_shared_default_refuted",
    "C17_plain_parameter_partial",
    "C17_given_value_partial",
    "C17_new_instance_partial"
   ],
   "note": "Refuted: list defaults of a class are shared by its instances (RegistrationRequest, ProviderConfigurationResponse). Partial: parameters without a list default, and lists given to the instance. Only lists directly under a parameter are objects; callers use a list for one message."
  },
  {
   "property": "C18",
   "status": "partial",
   "theorems": [
    "C18_refuted",
    "C18_failed_from_dict_partial"
   ],
   "note": "Refuted in full: entries before the faulty one stay stored. Partial: what a failing from_dict may change."
  },
  {
   "property": "C19",
   "status": "proved",
   "theorems": [
    "C19_json_codec"
   ],
   "note": "Floating-point numbers are kept as rational numbers in lowest terms; infinities, NaN and the sign of zero are outside the statement."
  },
  {
   "property": "C20",
   "status": "proved",
   "theorems": [
    "C20_qpkey_codec"
   ],
   "note": ""
  },
  {
   "property": "C21",
   "status": "proved",
   "theorems": [
    "C21_list_serializers",
    "C21_list_deserializers_total"
   ],
   "note": ""
  },
  {
   "property": "C22",
   "status": "proved",
   "theorems": [
    "C22_language_tags",
    "C22_language_tags_urlencoded"
   ],
   "note": ""
  },
  {
   "property": "C23",
   "status": "proved",
   "theorems": [
    "C23_set_defaults",
    "C23_set_defaults_idempotent",
    "C23_construct"
   ],
   "note": ""
  },
  {
   "property": "C24",
   "status": "proved",
   "theorems": [
    "C24_exact",
    "C24_derived"
   ],
   "note": "Descriptions that are strings; other value types are covered by response_ok (characters are compared element by element)."
  },
  {
   "property": "C25",
   "status": "partial",
   "theorems": [
    "C25_rfc6749_refuted",
    "C25_accepted_partial"
   ],
   "note": "Refuted in full (e.g. a full stop). Partial: which of the permitted descriptions are accepted."
  },
  {
   "property": "C26",
   "status": "proved",
   "theorems": [
    "C26_exact",
    "C26_derived"
   ],
   "note": ""
  },
  {
   "property": "C27",
   "status": "partial",
   "theorems": [
    "C27_request",
    "C27_neither",
    "C27_pushed",
    "C27_slot_refuted"
   ],
   "note": "Refuted in one point: with request_uri only, a forged __verified_request stays. The other clauses are proved in full."
  },
  {
   "property": "C28",
   "status": "partial",
   "theorems": [
    "C28_required_refuted",
    "C28_request_partial",
    "C28_pushed_partial"
   ],
   "note": "Refuted in full: neither class checks its table. Partial: where the two parameters come from."
  },
  {
   "property": "C29",
   "status": "proved",
   "theorems": [
    "C29_signature",
    "C29_keys"
   ],
   "note": "Signature verification itself is the oracle e_sig; not_encrypted: the text is not taken for a JWE by from_jwt."
  },
  {
   "property": "C30",
   "status": "proved",
   "theorems": [
    "C30_unsigned"
   ],
   "note": ""
  },
  {
   "property": "C31",
   "status": "proved",
   "theorems": [
    "C31_allowed"
   ],
   "note": ""
  },
  {
   "property": "C32",
   "status": "proved",
   "theorems": [
    "C32_known",
    "C32_errors"
   ],
   "note": ""
  },
  {
   "property": "C33",
   "status": "proved",
   "theorems": [
    "C33_hashes"
   ],
   "note": ""
  },
  {
   "property": "C34",
   "status": "proved",
   "theorems": [
    "C34_rules",
    "C34_required"
   ],
   "note": "Numbers are Python's: whole ones are exact, sums with a floating-point number are rounded to binary64 (C151); a sum beyond that range (OverflowError or infinity) counts as not accepted."
  },
  {
   "property": "C35",
   "status": "proved",
   "theorems": [
    "C35_rejected",
    "C35_earlier",
    "C35_skew"
   ],
   "note": "For skews that are whole numbers of seconds: with a fractional one times beyond the range of binary64 cannot be computed with."
  },
  {
   "property": "C36",
   "status": "partial",
   "theorems": [
    "C36_userinfo_partial",
    "C36_id_token_refuted"
   ],
   "note": "Refuted for IdToken (the inherited answer False is ignored); proved for UserInfo (OpenIDSchema and the classes derived from it)."
  },
  {
   "property": "C37",
   "status": "proved",
   "theorems": [
    "C37_slots"
   ],
   "note": ""
  },
  {
   "property": "C38",
   "status": "partial",
   "theorems": [
    "C38_slot_refuted",
    "C38_hint_partial",
    "C38_source_partial"
   ],
   "note": "Refuted in full: the slot is called verified_id_token_hint but __verified_id_token_hint is cleared. Partial: a hint is decoded and checked; possible sources of the slot."
  },
  {
   "property": "C39",
   "status": "proved",
   "theorems": [
    "C39_rules",
    "C39_no_false"
   ],
   "note": "Numbers are Python's: whole ones are exact, sums with a floating-point number are rounded to binary64 (C151); a sum beyond that range (OverflowError or infinity) counts as not accepted."
  },
  {
   "property": "C40",
   "status": "partial",
   "theorems": [
    "C40_skew_refuted",
    "C40_skew_partial"
   ],
   "note": "Refuted in full (nbf is compared with now-skew). Partial: tokens without nbf."
  },
  {
   "property": "C41",
   "status": "proved",
   "theorems": [
    "C41_rules"
   ],
   "note": ""
  },
  {
   "property": "C42",
   "status": "proved",
   "theorems": [
    "C42_replaced"
   ],
   "note": ""
  },
  {
   "property": "C43",
   "status": "partial",
   "theorems": [
    "C43_required_refuted",
    "C43_required_partial"
   ],
   "note": "Refuted in full (request object without redirect_uri and client_id). Partial: response_type and scope always, all parameters if no request object is used."
  },
  {
   "property": "C44",
   "status": "proved",
   "theorems": [
    "C44_accepted",
    "C44_result"
   ],
   "note": ""
  },
  {
   "property": "C45",
   "status": "proved",
   "theorems": [
    "C45_exact"
   ],
   "note": ""
  },
  {
   "property": "C46",
   "status": "partial",
   "theorems": [
    "C46_rules_partial",
    "C46_query_refuted"
   ],
   "note": "Refuted in one point (an issuer ending in '?' or '#'); all the other clauses are proved."
  },
  {
   "property": "C47",
   "status": "partial",
   "theorems": [
    "C47_charset_refuted",
    "C47_charset_partial"
   ],
   "note": "Refuted for '!' (the character set has the type set in its place). Partial: exact for the other characters."
  },
  {
   "property": "C48",
   "status": "proved",
   "theorems": [
    "C48_exact",
    "C48_none",
    "C48_sound"
   ],
   "note": "values must be a list for the exact form; soundness holds for all specifications."
  },
  {
   "property": "C49",
   "status": "partial",
   "theorems": [
    "C49_accepted_partial",
    "C49_exact_partial",
    "C49_format_refuted"
   ],
   "note": "Refuted in full (2000-1-1 is accepted). Partial: all well-formed dates are accepted and exactly the strptime readings are. ASCII texts."
  },
  {
   "property": "C50",
   "status": "proved",
   "theorems": [
    "C50_pack"
   ],
   "note": "lifetime an integer; left_hash returns text or None (text_hash)."
  },
  {
   "property": "C51",
   "status": "proved",
   "theorems": [
    "C51_rules",
    "C51_required"
   ],
   "note": "Numbers are Python's: whole ones are exact, sums with a floating-point number are rounded to binary64 (C151); a sum beyond that range (OverflowError or infinity) counts as not accepted."
  },
  {
   "property": "C52",
   "status": "partial",
   "theorems": [
    "C52_signed_refuted",
    "C52_allowed_partial",
    "C52_token_partial"
   ],
   "note": "Refuted in full (alg none and plain JSON are accepted). Partial: proved if allowed_sign_alg is given, and whenever the token is signed."
  },
  {
   "property": "C53",
   "status": "proved",
   "theorems": [
    "C53_redirect",
    "C53_hint"
   ],
   "note": ""
  },
  {
   "property": "C54",
   "status": "proved",
   "theorems": [
    "C54_verified",
    "C54_keys"
   ],
   "note": ""
  },
  {
   "property": "C55",
   "status": "partial",
   "theorems": [
    "C55_euclid",
    "C55_interval_partial",
    "C55_interval_to_zero_refuted"
   ],
   "note": "Refuted for intervals ending in 0 (f_quotient(-5,-5,0) falls back to the two-argument form); proved for all others. Integers only."
  },
  {
   "property": "C56",
   "status": "partial",
   "theorems": [
    "C56_parse_duration_partial",
    "C56_minutes_only_refuted"
   ],
   "note": "Refuted: with minutes and no months ('PT5M') TimeUtilError is raised, as the months are looked for before the T. Partial: every text of non-negative whole numbers that has months or has no minutes. CPython's limit of 4300 digits per number is ignored."
  },
  {
   "property": "C57",
   "status": "partial",
   "theorems": [
    "C57_add_duration_partial",
    "C57_one_hour_refuted"
   ],
   "note": "Refuted: a duration without days adds a day, days are clipped to the month's length, hours are reduced modulo 60. Partial: 1 to month-length days, less than 60 hours, existing date. The local time zone is taken to be UTC."
  },
  {
   "property": "C58",
   "status": "proved",
   "theorems": [
    "C58_terminates",
    "C58_day_in_month"
   ],
   "note": "Whole numbers; for fractional seconds see C175."
  },
  {
   "property": "C59",
   "status": "proved",
   "theorems": [
    "C59_before",
    "C59_after",
    "C59_later_than",
    "C59_texts"
   ],
   "note": "Instants the C library can represent; text points as rendered with four-digit years 1-9999."
  },
  {
   "property": "C60",
   "status": "partial",
   "theorems": [
    "C60_str_to_time",
    "C60_with_fraction",
    "C60_instant_partial",
    "C60_short_year_refuted",
    "C60_calendar"
   ],
   "note": "Proved for the four-digit format; refuted for instant() in years below 1000, where the C library does not pad the year."
  },
  {
   "property": "C61",
   "status": "proved",
   "theorems": [
    "C61_map_in_process"
   ],
   "note": "Keys: all plain ones (not '', '.', '..', not ending in '.lock') for set, get, contains; deletion for keys that are their own file names. Values that can be written and read back."
  },
  {
   "property": "C62",
   "status": "partial",
   "theorems": [
    "C62_newlines",
    "C62_trimmed",
    "C62_lines",
    "C62_restart",
    "C62_restart_partial",
    "C62_carriage_return_refuted"
   ],
   "note": "Refuted for texts with a carriage return (text mode turns it into a line feed); C62_restart states exactly what is read in all cases."
  },
  {
   "property": "C63",
   "status": "partial",
   "theorems": [
    "C63_delete_partial",
    "C63_delete_refuted"
   ],
   "note": "Refuted in full: del does not convert the key, so 'a b' stays. Partial: keys that are their own file names."
  },
  {
   "property": "C64",
   "status": "partial",
   "theorems": [
    "C64_inside_partial",
    "C64_inside_refuted"
   ],
   "note": "Refuted in full: del '../x' removes and creates files outside. Partial: all histories that delete no key with a slash."
  },
  {
   "property": "C65",
   "status": "partial",
   "theorems": [
    "C65_interrupted_partial",
    "C65_crash_refuted",
    "C65_failure_refuted"
   ],
   "note": "Refuted in full: open(...,'w') truncates before the value is serialized. Partial: crash before opening or after writing; key errors."
  },
  {
   "property": "C66",
   "status": "proved",
   "theorems": [
    "C66_other_processes"
   ],
   "note": "The writer itself gets the value as given (cache), others its converted text."
  },
  {
   "property": "C67",
   "status": "partial",
   "theorems": [
    "C67_race_partial",
    "C67_race_refuted"
   ],
   "note": "Refuted in full by a schedule: the loser keeps its own value if both take the modification time after both writes. Partial: what each process gets, for every schedule of any number of processes."
  },
  {
   "property": "C68",
   "status": "partial",
   "theorems": [
    "C68_failed_read_partial",
    "C68_failed_read_refuted"
   ],
   "note": "Refuted in full: the modification time is remembered before the file is parsed. Partial: keys without a cached value."
  },
  {
   "property": "C69",
   "status": "proved",
   "theorems": [
    "C69_views"
   ],
   "note": "In any order of operations of any number of views; the length is C84."
  },
  {
   "property": "C70",
   "status": "proved",
   "theorems": [
    "C70_labeled_dict"
   ],
   "note": "danswers covers set, get, item, del, contains, keys; update is C71, iteration C89."
  },
  {
   "property": "C71",
   "status": "partial",
   "theorems": [
    "C71_update_refuted"
   ],
   "note": "Refuted for every label, content and dictionary."
  },
  {
   "property": "C72",
   "status": "proved",
   "theorems": [
    "C72_sql_history"
   ],
   "note": "Single session, rows as a list."
  },
  {
   "property": "C73",
   "status": "partial",
   "theorems": [
    "C73_membership_partial",
    "C73_membership_refuted"
   ],
   "note": "Refuted in full: data cells and row numbers are found as well. Partial: exact characterisation for texts."
  },
  {
   "property": "C74",
   "status": "partial",
   "theorems": [
    "C74_delete_partial",
    "C74_delete_refuted"
   ],
   "note": "Refuted in full: delete does not commit. Partial: deletions followed by a set or update."
  },
  {
   "property": "C75",
   "status": "proved",
   "theorems": [
    "C75_storage_conf",
    "C75_init_storage",
    "C75_no_dictionary",
    "C75_truth",
    "C75_empty_entry",
    "C75_empty_handler"
   ],
   "note": "Instantiating the handler class (importer) is not modelled; the class name and its arguments are the result."
  },
  {
   "property": "C76",
   "status": "partial",
   "theorems": [
    "C76_proper_path_partial",
    "C76_proper_path_refuted"
   ],
   "note": "Refuted for paths of dots that no slash follows ('.' gives '/'); proved for all others."
  },
  {
   "property": "C77",
   "status": "proved",
   "theorems": [
    "C77_modsplit"
   ],
   "note": ""
  },
  {
   "property": "C78",
   "status": "proved",
   "theorems": [
    "C78_oauth2",
    "C78_oauth2_none",
    "C78_oidc",
    "C78_oidc_other",
    "C78_type"
   ],
   "note": "A constructor raising AttributeError makes the factory return None as well; stated in the theorem."
  },
  {
   "property": "C79",
   "status": "partial",
   "theorems": [
    "C79_claims_request_partial",
    "C79_plain_values_refuted"
   ],
   "note": "Refuted in full: plain values (a number for a text claim) pass. Partial: exact characterisation of the requests that pass."
  },
  {
   "property": "C80",
   "status": "partial",
   "theorems": [
    "C80_evidence_refuted",
    "C80_unknown_partial"
   ],
   "note": "Refuted for every content: the subclasses inherit verify and build themselves anew without end. Partial: unknown and missing types."
  },
  {
   "property": "C81",
   "status": "partial",
   "theorems": [
    "C81_add_duration_ends_refuted"
   ],
   "note": "Refuted: int() accepts white space before a minus sign, days fall below 1 and the loop never ends."
  },
  {
   "property": "C82",
   "status": "proved",
   "theorems": [
    "C82_in_a_while",
    "C82_a_while_ago",
    "C82_epoch_in_a_while",
    "C82_shift_time"
   ],
   "note": "total_seconds() is taken to be exact."
  },
  {
   "property": "C83",
   "status": "partial",
   "theorems": [
    "C83_absolute_partial",
    "C83_refused_partial",
    "C83_undescribed_partial",
    "C83_base_path_refuted"
   ],
   "note": "Refuted for every relative path: os is not imported in oidcmsg/__init__.py."
  },
  {
   "property": "C84",
   "status": "partial",
   "theorems": [
    "C84_label_length_partial",
    "C84_never_counts",
    "C84_view_length_partial",
    "C84_view_length_refuted"
   ],
   "note": "False for every label that needs quoting: the length is then 0 (C84_never_counts). Proved for labels that are their own file names."
  },
  {
   "property": "C85",
   "status": "partial",
   "theorems": [
    "C85_clear_refuted"
   ],
   "note": "Refuted for every directory with a file whose name has at least three characters."
  },
  {
   "property": "C86",
   "status": "partial",
   "theorems": [
    "C86_stale_keys_refuted"
   ],
   "note": "Refuted by a history of two processes."
  },
  {
   "property": "C87",
   "status": "partial",
   "theorems": [
    "C87_other_keys_partial",
    "C87_other_keys_refuted"
   ],
   "note": "Refuted for keys that end in '.lock'. Partial: plain keys."
  },
  {
   "property": "C88",
   "status": "partial",
   "theorems": [
    "C88_any_key_partial",
    "C88_any_key_refuted"
   ],
   "note": "Refuted for the empty key (and '.', '..'). Partial: plain keys."
  },
  {
   "property": "C89",
   "status": "partial",
   "theorems": [
    "C89_iteration_refuted",
    "C89_unlabelled"
   ],
   "note": "Refuted for every non-empty label and every non-empty LabeledDict."
  },
  {
   "property": "C90",
   "status": "proved",
   "theorems": [
    "C90_add_issuer"
   ],
   "note": ""
  },
  {
   "property": "C91",
   "status": "proved",
   "theorems": [
    "C91_sql_set"
   ],
   "note": ""
  },
  {
   "property": "C92",
   "status": "proved",
   "theorems": [
    "C92_json_values"
   ],
   "note": ""
  },
  {
   "property": "C93",
   "status": "partial",
   "theorems": [
    "C93_time_stamps_partial",
    "C93_time_stamps_refuted"
   ],
   "note": "UTC. Refuted for 0 (written as the current time) and for years below 1000. Partial: all others."
  },
  {
   "property": "C94",
   "status": "proved",
   "theorems": [
    "C94_dates"
   ],
   "note": ""
  },
  {
   "property": "C95",
   "status": "partial",
   "theorems": [
    "C95_rewrite_refuted",
    "C95_query_partial"
   ],
   "note": "Refuted for every time stamp text given in a dictionary or JSON object in the prescribed form. C95_query_partial: one given in a query string is kept as a number and can be written; years 1000-9999 and not the epoch, for which time_stamp_ser writes the current time."
  },
  {
   "property": "C96",
   "status": "proved",
   "theorems": [
    "C96_claims_constructor"
   ],
   "note": ""
  },
  {
   "property": "C97",
   "status": "partial",
   "theorems": [
    "C97_dictionaries_refuted"
   ],
   "note": "Refuted for every text, number, truth value and list claim."
  },
  {
   "property": "C98",
   "status": "partial",
   "theorems": [
    "C98_verified_claims_partial",
    "C98_verified_claims_refuted"
   ],
   "note": "Refuted for lists and for verified_claims inside of userinfo. Partial: one object at the top level."
  },
  {
   "property": "C99",
   "status": "proved",
   "theorems": [
    "C99_reading_ends",
    "C99_depth_enough"
   ],
   "note": "The recursion limit of CPython is ignored: very deep JSON gives RecursionError there."
  },
  {
   "property": "C100",
   "status": "proved",
   "theorems": [
    "C100_zones"
   ],
   "note": "UTC offsets in the text; the fields of an instant are those of gmtime (C60_calendar)."
  },
  {
   "property": "C101",
   "status": "partial",
   "theorems": [
    "C101_device_request_partial",
    "C101_accepted_refuted"
   ],
   "note": "Refuted for every request: verify() returns None, and the table inherited from the authorization code request demands code and redirect_uri. Partial: exact characterisation of the outcomes."
  },
  {
   "property": "C102",
   "status": "partial",
   "theorems": [
    "C102_required_partial",
    "C102_more_refuted"
   ],
   "note": "Refuted for the parameters of spec_required_more (username and password, error, events, id_token). Partial: all others, for 29 classes."
  },
  {
   "property": "C103",
   "status": "proved",
   "theorems": [
    "C103_jwt_round_trip",
    "C103_jwt_written"
   ],
   "note": "For messages with canonical values (canon of RoundTripSpec.v) and a library that parses as signed what it signed (reads_signed)."
  },
  {
   "property": "C104",
   "status": "proved",
   "theorems": [
    "C104_nested",
    "C104_jwe_from_jwt",
    "C104_jwe_round_trip"
   ],
   "note": "The decryption oracle inverts the encryption (decrypts, decryptable)."
  },
  {
   "property": "C105",
   "status": "proved",
   "theorems": [
    "C105_id_token_round_trip"
   ],
   "note": "hashable: left_hash gives a text for access_token and code (it gives None for an unknown hash)."
  },
  {
   "property": "C106",
   "status": "proved",
   "theorems": [
    "C106_honest_accepted"
   ],
   "note": "The hypotheses say what honest means: honest_claims, meant_for, partners, msg_fits; C29 and C30 have the converse direction. alg none is excluded."
  },
  {
   "property": "C107",
   "status": "partial",
   "theorems": [
    "C107_encrypted_refuted",
    "C107_encrypted_partial"
   ],
   "note": "Refuted: verify_id_token calls jws_factory on the outer text first and raises ValueError if it is no JWS. Partial: all such texts are refused."
  },
  {
   "property": "C108",
   "status": "proved",
   "theorems": [
    "C108_ordered_maps"
   ],
   "note": ""
  },
  {
   "property": "C109",
   "status": "partial",
   "theorems": [
    "C109_setdefault_refuted",
    "C109_setdefault_partial"
   ],
   "note": "Refuted: setdefault of MutableMapping returns its argument, __setitem__ stores a converted value (a text for a list parameter) or nothing (an empty list). Partial: true of parameters that are there, of undeclared ones and of values of the declared kind."
  },
  {
   "property": "C110",
   "status": "proved",
   "theorems": [
    "C110_round_trip",
    "C110_unknown",
    "C110_keyless"
   ],
   "note": ""
  },
  {
   "property": "C111",
   "status": "proved",
   "theorems": [
    "C111_query",
    "C111_query_keys",
    "C111_json"
   ],
   "note": ""
  },
  {
   "property": "C112",
   "status": "proved",
   "theorems": [
    "C112_query",
    "C112_dict"
   ],
   "note": ""
  },
  {
   "property": "C113",
   "status": "proved",
   "theorems": [
    "C113_rules_exact"
   ],
   "note": ""
  },
  {
   "property": "C114",
   "status": "proved",
   "theorems": [
    "C114_request_object"
   ],
   "note": ""
  },
  {
   "property": "C115",
   "status": "partial",
   "theorems": [
    "C115_memory",
    "C115_files",
    "C115_table_refuted"
   ],
   "note": "Refuted for storage in a table: AbstractStorageSQLAlchemy has no __getitem__, get() is a TypeError. Proved for storage in memory and in files."
  },
  {
   "property": "C116",
   "status": "proved",
   "theorems": [
    "C116_rebuilt"
   ],
   "note": ""
  },
  {
   "property": "C117",
   "status": "proved",
   "theorems": [
    "C117_crash"
   ],
   "note": ""
  },
  {
   "property": "C118",
   "status": "proved",
   "theorems": [
    "C118_order"
   ],
   "note": "The values themselves are equal, also in the order of nested dictionaries. Evidence never returns (C80); which exception it raises depends on the order of its parameters, so for it only that both raise is claimed."
  },
  {
   "property": "C119",
   "status": "proved",
   "theorems": [
    "C119_json_dict",
    "C119_query",
    "C119_authorization"
   ],
   "note": "Composition of C01-C03 and C118, and of these with C113; canon, urlable, covers_defaults as in C01, C02."
  },
  {
   "property": "C120",
   "status": "partial",
   "theorems": [
    "C120_issuers_partial",
    "C120_issuers_refuted"
   ],
   "note": "Refuted for configurations without the placeholder {issuer}: add_issuer has no effect on AbstractFileSystem then. Partial: directories that end in /{issuer}; issuers other than '.' and '..', legal operations as in C61, directories that exist and are empty at the start."
  },
  {
   "property": "C121",
   "status": "partial",
   "theorems": [
    "C121_again_partial",
    "C121_secured",
    "C121_forgotten",
    "C121_again_refuted"
   ],
   "note": "Refuted: verify() of the classes that take a request object removes it, so a second verify() refuses the message (C121_secured) or drops the verified request object (C121_forgotten). Partial: all messages without a request object."
  },
  {
   "property": "C122",
   "status": "partial",
   "theorems": [
    "C122_dict",
    "C122_json_partial",
    "C122_query_partial",
    "C122_plain",
    "C122_query_refuted"
   ],
   "note": "Refuted: a parameter that holds a message raises AttributeError if its JSON text is no object (claims=%5B%5D in an authorization request). Partial: the exact lists of exceptions; C122_plain: the claim for classes without such parameters. OutOfModel stands for what is not modelled, e.g. numbers beyond the range of binary64."
  },
  {
   "property": "C123",
   "status": "partial",
   "theorems": [
    "C123_verify_partial",
    "C123_query",
    "C123_dict_partial",
    "C123_undeclared_refuted"
   ],
   "note": "Refuted for six names that verify() reads though the class does not declare them (also_read), and for parameters that are null (OpenIDSchema.verify returns False). Partial: all other names and values; language tags of declared parameters count as declared. For OpenID Connect authorization requests the payloads of request objects are taken to be JSON."
  },
  {
   "property": "C124",
   "status": "partial",
   "theorems": [
    "C124_kept_partial",
    "C124_read",
    "C124_events_refuted",
    "C124_text_partial"
   ],
   "note": "Refuted: parameters of JSON type (events of a logout token, registration, place_of_birth) are written as a text. Partial: documents whose members have types with an inverse serializer (wire); C124_read for the other usual forms."
  },
  {
   "property": "C125",
   "status": "proved",
   "theorems": [
    "C125_library",
    "C125_query",
    "C125_foreign"
   ],
   "note": "reads_signed and can_check say what is asked of the crypto library and the key jar."
  },
  {
   "property": "C126",
   "status": "proved",
   "theorems": [
    "C126_foreign"
   ],
   "note": "Same assumptions on the crypto library as in C125; document tolerated: the forms of JSON values that are read, C124."
  },
  {
   "property": "C127",
   "status": "partial",
   "theorems": [
    "C127_current_partial",
    "C127_expired_partial",
    "C127_hint_refuted"
   ],
   "note": "Refuted: expired hints raise EXPError. Partial: current hints are accepted; accepted hints have not expired."
  },
  {
   "property": "C128",
   "status": "partial",
   "theorems": [
    "C128_frame_partial",
    "C128_registration_partial",
    "C128_object_partial",
    "C128_secured_partial",
    "C128_refused_refuted"
   ],
   "note": "Refuted for refused messages: an OpenID Connect authorization request whose request object breaks a rule has already been replaced. Partial: the frame for every class and outcome (may_write)."
  },
  {
   "property": "C129",
   "status": "partial",
   "theorems": [
    "C129_verify_partial",
    "C129_query_partial",
    "C129_refuted"
   ],
   "note": "Refuted: null for error_description, birthdate or exp, an nbf that is a text, a provider without the scope openid, a token without alg and a request object that is no JSON object raise TypeErrors, KeyErrors and AttributeErrors. Partial: messages without tokens whose values have the forms their class looks for (looks_into); query strings of all classes that do not come in tokens have them. Missing: messages with tokens, identity assurance."
  },
  {
   "property": "C130",
   "status": "proved",
   "theorems": [
    "C130_narrowing",
    "C130_any_key_jar"
   ],
   "note": "keys_blind: get_jwt_verify_keys does not look at client_id, allowed_sign_alg and allow_sign_alg_none; C130_any_key_jar does without it."
  },
  {
   "property": "C131",
   "status": "proved",
   "theorems": [
    "C131_other_arguments"
   ],
   "note": "uses lists the arguments per class; the key jar itself counts as an argument for the classes of uses_jar."
  },
  {
   "property": "C132",
   "status": "partial",
   "theorems": [
    "C132_read_partial",
    "C132_typed_partial",
    "C132_refused_refuted",
    "C132_untyped_refuted"
   ],
   "note": "C132_read_partial: documents with the parameters of the specifications (transcribed in Spec/ProtocolSpec.v), each of its type there, are read with these values. C132_typed_partial: whatever document was read, a parameter of plain type has a value of the type of the specification or null (documents that give a dictionary for a list are left out, see C05). Refuted for an ID Token's sub_jwk (an object) and nationalities (an array), which are refused whatever their value (C132_refused_refuted), and for parameters that the library names otherwise or not at all, which take any value (C132_untyped_refuted; e.g. backchannel_logout_session_required)."
  },
  {
   "property": "C133",
   "status": "partial",
   "theorems": [
    "C133_values_partial",
    "C133_values_refuted"
   ],
   "note": "C133_values_partial: all messages of the classes with enumerated parameters and without request object or hint. Refuted for eight error codes (C133_values_refuted), e.g. account_selection_required: the library has session_selection_required."
  },
  {
   "property": "C134",
   "status": "partial",
   "theorems": [
    "C134_demands_partial",
    "C134_demands_refuted"
   ],
   "note": "C134_demands_partial: 25 classes of messages for which the specification says no more than types, required parameters and enumerated values; an error description has to have the characters that verify() takes (C24). Refuted (C134_demands_refuted): grant_types_supported, links and redirect_uri are demanded although optional."
  },
  {
   "property": "C135",
   "status": "partial",
   "theorems": [
    "C135_only_partial",
    "C135_filled_partial",
    "C135_defaults_refuted"
   ],
   "note": "C135_only_partial, C135_filled_partial: exactly the defaults spec_defaults and other_defaults are filled in. Refuted (C135_defaults_refuted): require_request_uri_registration is True where the specification has false, the grant type of a device token request is authorization_code, and six defaults of the specification are not filled in."
  },
  {
   "property": "C136",
   "status": "proved",
   "theorems": [
    "C136_interval",
    "C136_id_token",
    "C136_logout",
    "C136_timeless"
   ],
   "note": "For skews that are whole numbers of seconds: with a fractional one times beyond the range of binary64 cannot be computed with."
  },
  {
   "property": "C137",
   "status": "proved",
   "theorems": [
    "C137_larger",
    "C137_id_token",
    "C137_logout",
    "C137_other"
   ],
   "note": ""
  },
  {
   "property": "C138",
   "status": "proved",
   "theorems": [
    "C138_expires",
    "C138_begins"
   ],
   "note": "For skews that are whole numbers of seconds: with a fractional one times beyond the range of binary64 cannot be computed with."
  },
  {
   "property": "C139",
   "status": "proved",
   "theorems": [
    "C139_request",
    "C139_response",
    "C139_token_request",
    "C139_tokens"
   ],
   "note": ""
  },
  {
   "property": "C140",
   "status": "proved",
   "theorems": [
    "C140_hybrid"
   ],
   "note": ""
  },
  {
   "property": "C141",
   "status": "proved",
   "theorems": [
    "C141_json",
    "C141_query",
    "C141_jwt"
   ],
   "note": ""
  },
  {
   "property": "C142",
   "status": "partial",
   "theorems": [
    "C142_issuer",
    "C142_client",
    "C142_claims",
    "C142_nonce_partial",
    "C142_nonce_refuted"
   ],
   "note": "An ID Token without nonce is accepted whatever nonce the client expects: the nonce is compared only if both are there (oidc/__init__.py:828-830), although OpenID Connect Core 3.1.3.7 (11) demands the claim if a nonce was sent. Issuer, client and claims are proved; the nonce for tokens that have one."
  },
  {
   "property": "C143",
   "status": "proved",
   "theorems": [
    "C143_code_and_token"
   ],
   "note": ""
  },
  {
   "property": "C144",
   "status": "partial",
   "theorems": [
    "C144_keys_partial",
    "C144_client_refuted"
   ],
   "note": "The keys are those of the client named in the request, but parameters of the request object that differ from the request are only logged (oidc/__init__.py:462-467) and replace it, client_id included: a client can make the request of another client with its own key."
  },
  {
   "property": "C145",
   "status": "partial",
   "theorems": [
    "C145_signed_partial",
    "C145_unsigned_refuted"
   ],
   "note": "A JWS with an algorithm other than none is verified. Objects with alg none and plain JSON texts are taken as they are; the argument alg has no effect, from_jwt looks at sigalg (message.py:515-560)."
  },
  {
   "property": "C146",
   "status": "partial",
   "theorems": [
    "C146_expired_refuted"
   ],
   "note": "exp, nbf and iat of request objects are not looked at."
  },
  {
   "property": "C147",
   "status": "partial",
   "theorems": [
    "C147_nested_refuted"
   ],
   "note": "A parameter request in the request object stays in the message."
  },
  {
   "property": "C148",
   "status": "partial",
   "theorems": [
    "C148_together_partial",
    "C148_together_refuted",
    "C148_apart_refuted"
   ],
   "note": "Enforced: the nine rules in `together`. Each of the rules in together_not_enforced and apart_not_enforced is refuted by an accepted message that breaks it."
  },
  {
   "property": "C149",
   "status": "partial",
   "theorems": [
    "C149_expected_partial",
    "C149_absent_refuted"
   ],
   "note": "Holds where the class requires the claim (ID Token iss/aud, AuthnToken, LogoutToken). For nonce of ID Tokens, JsonWebToken iss/aud and iss/client_id of authorization responses the comparison is skipped if the claim is absent; refuted for each."
  },
  {
   "property": "C150",
   "status": "proved",
   "theorems": [
    "C150_time",
    "C150_stamp",
    "C150_date",
    "C150_values"
   ],
   "note": "Both directions. Texts with other than ASCII characters are outside the model (strptime takes other decimal digits too), as are fractions of a second in the zone offset."
  },
  {
   "property": "C151",
   "status": "proved",
   "theorems": [
    "C151_json",
    "C151_unambiguous",
    "C151_refused",
    "C151_writing",
    "C151_nearest",
    "C151_limit",
    "C151_exact"
   ],
   "note": "Both directions, for all texts. Numbers with fraction or exponent are rounded to binary64 (round half to even), for all decimal texts; those that are infinite there, NaN and Infinity are outside the model (never Ok there), minus zero is zero; so are the limits of the interpreter (depth of recursion, 4300 digits)."
  },
  {
   "property": "C152",
   "status": "proved",
   "theorems": [
    "C152_query",
    "C152_malformed",
    "C152_writing",
    "C152_written",
    "C152_key"
   ],
   "note": "The grammar is an inductive definition of its own; every text either has a meaning by it, and is read as that, or shows U+FFFD."
  },
  {
   "property": "C153",
   "status": "proved",
   "theorems": [
    "C153_metadata",
    "C153_discovery",
    "C153_registration",
    "C153_registered"
   ],
   "note": "The converse of C46 for well-formed issuers, and end-to-end through JSON. Scope names with an exclamation mark are excluded (C47: they are refused)."
  },
  {
   "property": "C154",
   "status": "proved",
   "theorems": [
    "C154_sent",
    "C154_type",
    "C154_accepted",
    "C154_signed"
   ],
   "note": "End-to-end over C39 and C103. An assertion with exp = 0 counts as one without exp and is refused (hypothesis of assertion_ok)."
  },
  {
   "property": "C155",
   "status": "proved",
   "theorems": [
    "C155_carried",
    "C155_twice",
    "C155_verify"
   ],
   "note": "verify() is covered for extras with ordinary values (neither null nor messages) that the class of msg1 does not look at; the others are the exceptions of C123."
  },
  {
   "property": "C156",
   "status": "proved",
   "theorems": [
    "C156_data",
    "C156_keys",
    "C156_shared",
    "C156_empty"
   ],
   "note": "What the storage class does with its configuration is C120; importing it is not modelled."
  },
  {
   "property": "C157",
   "status": "proved",
   "theorems": [
    "C157_int",
    "C157_refused",
    "C157_float",
    "C157_param",
    "C157_written"
   ],
   "note": "The value of a text as a floating point number is not modelled, only whether it is one; the limit of 4300 digits of newer Pythons is left out."
  },
  {
   "property": "C158",
   "status": "proved",
   "theorems": [
    "C158_reads"
   ],
   "note": "PT5M is no duration by this grammar: its M is taken for the months."
  },
  {
   "property": "C159",
   "status": "proved",
   "theorems": [
    "C159_written_read",
    "C159_written_read_url",
    "C159_json_taken_for_query",
    "C159_dictionary_read",
    "C159_dictionary_fields",
    "C159_dictionary_literals",
    "C159_other_formats",
    "C159_lists",
    "C159_text_lists",
    "C159_in_to_dict",
    "C159_in_query",
    "C159_no_messages",
    "C159_any_written",
    "C159_any_read",
    "C159_any_read_list",
    "C159_any_one_way"
   ],
   "note": "Contents as for C01-C03 (canon / urlable). str() of containers in urlencode only for printable ASCII texts; claims_ser of a message as query text below the top level is left out."
  },
  {
   "property": "C160",
   "status": "proved",
   "theorems": [
    "C160_given_jar",
    "C160_source",
    "C160_source_type",
    "C160_httpc",
    "C160_own_name",
    "C160_made",
    "C160_boxes",
    "C160_boxes_others"
   ],
   "note": "Key jars are cryptojwt's; they enter as a record of functions, and what is assumed of them (holds, moves) is in the theorems; Proofs/KeyContextSamples.v has an instance."
  },
  {
   "property": "C161",
   "status": "proved",
   "theorems": [
    "C161_found_again",
    "C161_names_apart",
    "C161_no_module"
   ],
   "note": "importlib.import_module and getattr are Python's; they enter as functions without any assumption."
  },
  {
   "property": "C162",
   "status": "proved",
   "theorems": [
    "C162_token_read",
    "C162_texts",
    "C162_other_values",
    "C162_formats",
    "C162_id_token"
   ],
   "note": "Contents as for C01 and C02 (canon)."
  },
  {
   "property": "C163",
   "status": "proved",
   "theorems": [
    "C163_verify",
    "C163_query",
    "C163_conditions"
   ],
   "note": "The message has no request object; encrypted tokens are left out. C163_conditions shows that the other conditions are needed."
  },
  {
   "property": "C164",
   "status": "proved",
   "theorems": [
    "C164_query",
    "C164_json",
    "C164_secured",
    "C164_conditions"
   ],
   "note": ""
  },
  {
   "property": "C165",
   "status": "proved",
   "theorems": [
    "C165_query",
    "C165_json",
    "C165_dict"
   ],
   "note": "Composition of C134 with C01-C03; the parameters with defaults and the required ones of the tables are all among those of the specification, so no further hypothesis is needed. canon, urlable as in C01, C02."
  },
  {
   "property": "C166",
   "status": "proved",
   "theorems": [
    "C166_requests",
    "C166_verify",
    "C166_claims",
    "C166_conditions"
   ],
   "note": "Completes C129 and C79 for the classes of identity assurance; Evidence and its subclasses never return from verify() (C80)."
  },
  {
   "property": "C167",
   "status": "partial",
   "theorems": [
    "C167_catches",
    "C167_library_partial",
    "C167_library_refuted",
    "C167_verify",
    "C167_request",
    "C167_read",
    "C167_tables"
   ],
   "note": "Refuted for UnSupported, InvalidRedirectUri, MissingPage and ModificationForbidden, which are derived from Exception (no code of the library raises them). The other parts hold; conditions on messages as in C129, C164."
  },
  {
   "property": "C168",
   "status": "proved",
   "theorems": [
    "C168_text",
    "C168_read",
    "C168_level",
    "C168_codec"
   ],
   "note": "Every layout of one general printer is read alike (Proofs/LayoutLemmas.v)."
  },
  {
   "property": "C169",
   "status": "proved",
   "theorems": [
    "C169_rows"
   ],
   "note": "Columns are those of db_setup.py with created NULL (Model/Sql.v)."
  },
  {
   "property": "C170",
   "status": "proved",
   "theorems": [
    "C170_id_token",
    "C170_jwt",
    "C170_logout"
   ],
   "note": "Found by mutation of py_sub: no theorem said what a skew of the wrong type gives."
  },
  {
   "property": "C171",
   "status": "proved",
   "theorems": [
    "C171_again",
    "C171_number",
    "C171_short"
   ],
   "note": "Numbers that Python reads as infinity are outside the model. That the texts are of Unicode characters is needed (C171_surrogates)."
  },
  {
   "property": "C172",
   "status": "proved",
   "theorems": [
    "C172_id_token",
    "C172_logout",
    "C172_interval",
    "C172_until",
    "C172_larger"
   ],
   "note": "Beyond 2^52 seconds a sum may be rounded to the other side, or overflow."
  },
  {
   "property": "C173",
   "status": "proved",
   "theorems": [
    "C173_own_key",
    "C173_get",
    "C173_readers",
    "C173_midst",
    "C173_crash",
    "C173_written",
    "C173_one"
   ],
   "note": "For databases with READ COMMITTED transactions; waiting for locks only removes interleavings. Deadlocks and serialization errors are not modelled."
  },
  {
   "property": "C174",
   "status": "partial",
   "theorems": [
    "C174_both_refuted",
    "C174_alone_partial"
   ],
   "note": "False: set() deletes, then inserts, and the owner column is not unique, so that two sets of a new key that overlap leave two rows and get returns the first; proved if no other transaction is open during set(), which also mends the two rows."
  },
  {
   "property": "C175",
   "status": "proved",
   "theorems": [
    "C175_value",
    "C175_texts",
    "C175_special",
    "C175_raises",
    "C175_infinite",
    "C175_year"
   ],
   "note": "time.mktime() of Python 3.11 takes integers only. With a minus after white space the loop need not end (C81)."
  },
  {
   "property": "C176",
   "status": "proved",
   "theorems": [
    "C176_text",
    "C176_plain",
    "C176_meet",
    "C176_apart"
   ],
   "note": ""
  },
  {
   "property": "C177",
   "status": "partial",
   "theorems": [
    "C177_views_partial",
    "C177_clean_partial",
    "C177_refuted",
    "C177_shared"
   ],
   "note": "False: the views labelled 'a' and 'a__b' share files (C177_refuted, and C177_shared for every pair of labels as in C176); proved for all other labels, among them different labels without underscores."
  }
 ]
}