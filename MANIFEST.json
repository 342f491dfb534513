{
 "claims": [
  {
   "property": "C01",
   "status": "proved",
   "theorems": [
    "C01_enum_round_trip",
    "C01_enum_injective",
    "C01_enum_identifiers",
    "C01_enum_all_injective"
   ],
   "note": ""
  },
  {
   "property": "C02",
   "status": "proved",
   "theorems": [
    "C02_enum_parse_exact",
    "C02_enum_parse_total"
   ],
   "note": ""
  },
  {
   "property": "C03",
   "status": "proved",
   "theorems": [
    "C03_enum_marshal",
    "C03_invalid_text"
   ],
   "note": ""
  },
  {
   "property": "C04",
   "status": "proved",
   "theorems": [
    "C04_version_order"
   ],
   "note": ""
  },
  {
   "property": "C05",
   "status": "proved",
   "theorems": [
    "C05_int_decode_exact",
    "C05_int_round_trip"
   ],
   "note": ""
  },
  {
   "property": "C06",
   "status": "proved",
   "theorems": [
    "C06_amount_decode_exact"
   ],
   "note": "math/big refuses more than 1000000 fractional digits of a nonzero number; the theorem states that exception exactly"
  },
  {
   "property": "C07",
   "status": "proved",
   "theorems": [
    "C07_amount_round_trip",
    "C07_amount_rounding"
   ],
   "note": ""
  },
  {
   "property": "C08",
   "status": "proved",
   "theorems": [
    "C08_amount_equal",
    "C08_amount_equal_equivalence",
    "C08_amount_equal_text"
   ],
   "note": ""
  },
  {
   "property": "C09",
   "status": "proved",
   "theorems": [
    "C09_date_round_trip",
    "C09_date_round_trip_unnamed"
   ],
   "note": ""
  },
  {
   "property": "C10",
   "status": "partial",
   "theorems": [
    "C10_negative_offset_refuted",
    "C10_negative_offset_sign_lost"
   ],
   "note": "refuted: the statement is false of the code (types.go:173-181 loses the sign); C10_negative_offset_sign_lost says what happens instead, for every such date"
  },
  {
   "property": "C11",
   "status": "proved",
   "theorems": [
    "C11_date_no_zone",
    "C11_date_zone"
   ],
   "note": ""
  },
  {
   "property": "C12",
   "status": "proved",
   "theorems": [
    "C12_date_equal",
    "C12_date_equal_equivalence",
    "C12_date_equal_any_zone"
   ],
   "note": ""
  },
  {
   "property": "C13",
   "status": "proved",
   "theorems": [
    "C13_boolean_exact",
    "C13_boolean_round_trip"
   ],
   "note": ""
  },
  {
   "property": "C14",
   "status": "proved",
   "theorems": [
    "C14_string_trim",
    "C14_uid_trim",
    "C14_round_trip_iff"
   ],
   "note": ""
  },
  {
   "property": "C15",
   "status": "proved",
   "theorems": [
    "C15_uid_valid",
    "C15_uid_recommended",
    "C15_recommended_valid"
   ],
   "note": ""
  },
  {
   "property": "C16",
   "status": "proved",
   "theorems": [
    "C16_random_uid_format",
    "C16_random_uid_injective",
    "C16_random_uid_failure"
   ],
   "note": ""
  },
  {
   "property": "C17",
   "status": "proved",
   "theorems": [
    "C17_new_currency",
    "C17_decode_like_new",
    "C17_currency_round_trip",
    "C17_currency_equal",
    "C17_currency_valid"
   ],
   "note": ""
  },
  {
   "property": "C18",
   "status": "proved",
   "theorems": [
    "C18_status_valid",
    "C18_meaning_known",
    "C18_conditions_known",
    "C18_texts"
   ],
   "note": ""
  },
  {
   "property": "C19",
   "status": "proved",
   "theorems": [
    "C19_signon_valid",
    "C19_signon_effect"
   ],
   "note": ""
  },
  {
   "property": "C20",
   "status": "proved",
   "theorems": [
    "C20_every_version",
    "C20_dialect",
    "C20_sgml",
    "C20_xml"
   ],
   "note": ""
  },
  {
   "property": "C21",
   "status": "proved",
   "theorems": [
    "C21_sgml_sound",
    "C21_header"
   ],
   "note": ""
  },
  {
   "property": "C22",
   "status": "proved",
   "theorems": [
    "C22_sgml_complete",
    "C22_version_unique"
   ],
   "note": ""
  },
  {
   "property": "C23",
   "status": "proved",
   "theorems": [
    "C23_xml_sound",
    "C23_instruction",
    "C23_content"
   ],
   "note": "C68 says the same of the bytes of a document, without tokens"
  },
  {
   "property": "C24",
   "status": "proved",
   "theorems": [
    "C24_request",
    "C24_response"
   ],
   "note": ""
  },
  {
   "property": "C25",
   "status": "proved",
   "theorems": [
    "C25_request",
    "C25_response"
   ],
   "note": ""
  },
  {
   "property": "C26",
   "status": "proved",
   "theorems": [
    "C26_decode",
    "C26_unknown_set",
    "C26_misplaced"
   ],
   "note": ""
  },
  {
   "property": "C27",
   "status": "proved",
   "theorems": [
    "C27_tree",
    "C27_response_round_trip"
   ],
   "note": "for fields XML can carry (response_clean) and Go can represent (response_representable); C27_tree is the step between values and trees"
  },
  {
   "property": "C28",
   "status": "proved",
   "theorems": [
    "C28_request_dialects"
   ],
   "note": ""
  },
  {
   "property": "C29",
   "status": "proved",
   "theorems": [
    "C29_no_markup",
    "C29_ampersands",
    "C29_field",
    "C29_request",
    "C29_response"
   ],
   "note": ""
  },
  {
   "property": "C30",
   "status": "proved",
   "theorems": [
    "C30_request_containers",
    "C30_response_containers",
    "C30_request_leaves"
   ],
   "note": "the five options that came with OFX 2 are not in the list of simple elements (ofx2_options); harmless, as they are always written with an end tag in OFX 2 documents, but a version 1 request that sets them is written with end tags too"
  },
  {
   "property": "C31",
   "status": "proved",
   "theorems": [
    "C31_end_tags",
    "C31_decode"
   ],
   "note": ""
  },
  {
   "property": "C32",
   "status": "proved",
   "theorems": [
    "C32_valid",
    "C32_every_problem",
    "C32_flattened",
    "C32_error_text",
    "C32_parse",
    "C32_parse_marshalled"
   ],
   "note": ""
  },
  {
   "property": "C33",
   "status": "proved",
   "theorems": [
    "C33_written",
    "C33_read",
    "C33_round_trip"
   ],
   "note": ""
  },
  {
   "property": "C34",
   "status": "proved",
   "theorems": [
    "C34_written",
    "C34_read",
    "C34_accepted",
    "C34_round_trip"
   ],
   "note": ""
  },
  {
   "property": "C35",
   "status": "proved",
   "theorems": [
    "C35_positions_written",
    "C35_positions_read",
    "C35_positions_round_trip",
    "C35_orders_written",
    "C35_orders_read",
    "C35_orders_round_trip"
   ],
   "note": ""
  },
  {
   "property": "C36",
   "status": "proved",
   "theorems": [
    "C36_written",
    "C36_read",
    "C36_round_trip"
   ],
   "note": ""
  },
  {
   "property": "C37",
   "status": "partial",
   "theorems": [
    "C37_correction_refuted",
    "C37_no_correction_partial",
    "C37_transaction_accepted"
   ],
   "note": "refuted: bank.go:143 has the test inverted; C37_transaction_accepted is the exact condition the code checks, C37_no_correction_partial the part of the property that holds"
  },
  {
   "property": "C38",
   "status": "proved",
   "theorems": [
    "C38_statement_valid"
   ],
   "note": "'valid transaction' is the condition the code checks (transaction_accepted, see C37)"
  },
  {
   "property": "C39",
   "status": "proved",
   "theorems": [
    "C39_gates",
    "C39_request_valid",
    "C39_monotone"
   ],
   "note": ""
  },
  {
   "property": "C40",
   "status": "partial",
   "theorems": [
    "C40_currency_refuted",
    "C40_currency_valid_partial",
    "C40_currency_accepted"
   ],
   "note": "refuted: common.go:366 looks at the low 64 bits of an integer rate only; the property holds for numerators below 2^64 (C40_currency_valid_partial), C40_currency_accepted is the exact condition"
  },
  {
   "property": "C41",
   "status": "partial",
   "theorems": [
    "C41_raw_refused",
    "C41_no_parse_refused",
    "C41_request_refused",
    "C41_raw_partial",
    "C41_no_parse_partial",
    "C41_discover",
    "C41_redirect_refuted"
   ],
   "note": "refuted as stated: net/http follows redirections, also to http URLs, and repeats the body after 307 and 308 (C41_redirect_refuted); the rest holds: nothing is sent for a URL without https, and any other request goes where an answer redirected it"
  },
  {
   "property": "C42",
   "status": "proved",
   "theorems": [
    "C42_vanguard_rounds",
    "C42_vanguard_two"
   ],
   "note": ""
  },
  {
   "property": "C43",
   "status": "partial",
   "theorems": [
    "C43_history",
    "C43_framing_partial",
    "C43_plain_path",
    "C43_refuted"
   ],
   "note": "refuted for URLs with percent-encoded line ends in the path (C43_refuted): discovercard_client.go:28-35 writes the decoded path; holds for paths without line ends and spaces, in particular without line ends if the URL has no percent sign (C43_plain_path)"
  },
  {
   "property": "C44",
   "status": "proved",
   "theorems": [
    "C44_get_client"
   ],
   "note": ""
  },
  {
   "property": "C45",
   "status": "proved",
   "theorems": [
    "C45_fields",
    "C45_defaults"
   ],
   "note": ""
  },
  {
   "property": "C46",
   "status": "proved",
   "theorems": [
    "C46_request",
    "C46_marshal_error"
   ],
   "note": ""
  },
  {
   "property": "C47",
   "status": "proved",
   "theorems": [
    "C47_routing"
   ],
   "note": ""
  },
  {
   "property": "C48",
   "status": "proved",
   "theorems": [
    "C48_detection",
    "C48_combinations"
   ],
   "note": "each attempt comes with the exact condition for something being sent at all; if no combination works the exit status is 0 all the same (detection ends with Finished, main with Exited 0)"
  },
  {
   "property": "C49",
   "status": "proved",
   "theorems": [
    "C49_dry"
   ],
   "note": ""
  },
  {
   "property": "C50",
   "status": "partial",
   "theorems": [
    "C50_crash_partial",
    "C50_unprintable",
    "C50_crash_refuted"
   ],
   "note": "refuted: a statement without a list of transactions, a credit card transaction without name and payee, and an investment statement without balance or list crash the tool; C50_crash_partial and C50_unprintable say exactly when it crashes"
  },
  {
   "property": "C51",
   "status": "partial",
   "theorems": [
    "C51_refuted",
    "C51_request_partial",
    "C51_response_partial"
   ],
   "note": "refuted: writeHeader's error is dropped (request.go:84, response.go:418); what holds is that the library does not read such a document"
  },
  {
   "property": "C52",
   "status": "partial",
   "theorems": [
    "C52_loans_rejected",
    "C52_loans_lost_refuted"
   ],
   "note": "refuted as a round trip (C52_loans_lost_refuted); what holds is that such documents are rejected"
  },
  {
   "property": "C53",
   "status": "proved",
   "theorems": [
    "C53_types_read",
    "C53_types_written",
    "C53_transactions",
    "C53_securities",
    "C53_positions"
   ],
   "note": ""
  },
  {
   "property": "C54",
   "status": "proved",
   "theorems": [
    "C54_again"
   ],
   "note": ""
  },
  {
   "property": "C55",
   "status": "proved",
   "theorems": [
    "C55_dialect",
    "C55_window"
   ],
   "note": ""
  },
  {
   "property": "C56",
   "status": "proved",
   "theorems": [
    "C56_http",
    "C56_discover"
   ],
   "note": ""
  },
  {
   "property": "C57",
   "status": "proved",
   "theorems": [
    "C57_shows"
   ],
   "note": "for commands that accept -dryrun; if the request cannot be marshalled nothing is sent, and the dry run prints the error and exits with 0"
  },
  {
   "property": "C58",
   "status": "proved",
   "theorems": [
    "C58_downloads"
   ],
   "note": ""
  },
  {
   "property": "C59",
   "status": "proved",
   "theorems": [
    "C59_success",
    "C59_accepted",
    "C59_refused"
   ],
   "note": ""
  },
  {
   "property": "C60",
   "status": "proved",
   "theorems": [
    "C60_bank",
    "C60_creditcard",
    "C60_nothing"
   ],
   "note": ""
  },
  {
   "property": "C61",
   "status": "partial",
   "theorems": [
    "C61_investments_partial",
    "C61_balance_refuted",
    "C61_space_refuted"
   ],
   "note": "refuted for the balance: invtransactions.go:71 shows it only if it is a whole number that is not a multiple of 2^64 (C61_balance_refuted), and there is no space between the date of a purchase, or of a closed option, and what follows (C61_space_refuted); C61_investments_partial gives the exact text of every line"
  },
  {
   "property": "C62",
   "status": "proved",
   "theorems": [
    "C62_sends"
   ],
   "note": ""
  },
  {
   "property": "C63",
   "status": "proved",
   "theorems": [
    "C63_accounts",
    "C63_nothing"
   ],
   "note": ""
  },
  {
   "property": "C64",
   "status": "proved",
   "theorems": [
    "C64_truncated_response",
    "C64_truncated_request",
    "C64_extended"
   ],
   "note": "C64_truncated_response needs the names of message sets in profiles to be element names (response_named), as everything that is written"
  },
  {
   "property": "C65",
   "status": "proved",
   "theorems": [
    "C65_fields",
    "C65_rewritten"
   ],
   "note": "assumes that XXX, which currency.ParseISO knows, is a currency; exact_field is a multiple of 10^-100 for amounts and date_ok for dates"
  },
  {
   "property": "C66",
   "status": "proved",
   "theorems": [
    "C66_alike",
    "C66_sgml",
    "C66_xml",
    "C66_vendors",
    "C66_lists"
   ],
   "note": "the list of message set profiles (MSGSETLIST) is left alone by alike"
  },
  {
   "property": "C67",
   "status": "partial",
   "theorems": [
    "C67_drift_refuted",
    "C67_reread_partial",
    "C67_kept",
    "C67_near",
    "C67_minutes"
   ],
   "note": "refuted for zones that are not multiples of three minutes (C67_drift_refuted); C67_reread_partial, C67_kept, C67_near and C67_minutes say exactly what happens for every offset outside of C10"
  },
  {
   "property": "C68",
   "status": "proved",
   "theorems": [
    "C68_grammar",
    "C68_accepted",
    "C68_unambiguous",
    "C68_spellings"
   ],
   "note": "element names are ASCII; Go accepts some names with other letters, none of which OFX has"
  },
  {
   "property": "C69",
   "status": "proved",
   "theorems": [
    "C69_request",
    "C69_response",
    "C69_line_ends",
    "C69_response_line_ends",
    "C69_one_line"
   ],
   "note": "C69_response needs the names of message sets in profiles to be element names (response_named)"
  },
  {
   "property": "C70",
   "status": "partial",
   "theorems": [
    "C70_xml_partial",
    "C70_sgml_refuted"
   ],
   "note": "refuted for SGML: DecodeResponse switches Strict off (response.go:302), and an end tag that matches nothing then closes everything up to OFX; holds for XML; C73_ending says where a document ends"
  },
  {
   "property": "C71",
   "status": "proved",
   "theorems": [
    "C71_effect",
    "C71_message",
    "C71_signon_response"
   ],
   "note": "the rules are in SpecValid.v (message_ok); a valid bank transaction or currency is what the code checks, see C37 and C40"
  },
  {
   "property": "C72",
   "status": "proved",
   "theorems": [
    "C72_message",
    "C72_request_tree",
    "C72_response_tree",
    "C72_request",
    "C72_response",
    "C72_one_file",
    "C72_one_response_file"
   ],
   "note": "C72_message is about messages MarshalXML does not refuse (encodable); C72_response needs the names of message sets in profiles to be element names (response_named)"
  },
  {
   "property": "C73",
   "status": "proved",
   "theorems": [
    "C73_grammar",
    "C73_accepted",
    "C73_unambiguous",
    "C73_spellings",
    "C73_well_formed",
    "C73_same_as_xml",
    "C73_ending"
   ],
   "note": "element names are ASCII, as in C68; C73_ending sharpens C70"
  },
  {
   "property": "C74",
   "status": "proved",
   "theorems": [
    "C74_message",
    "C74_decode",
    "C74_parse"
   ],
   "note": "the listing is SpecReading.v; how the text of a leaf becomes a value is C02, C05, C06, C09-C11, C13, C14, C17, C81 and C82"
  },
  {
   "property": "C75",
   "status": "proved",
   "theorems": [
    "C75_request",
    "C75_unique",
    "C75_injective",
    "C75_readable",
    "C75_clock"
   ],
   "note": "for fields XML can carry (request_clean) and Go can represent (request_representable), as in C28; C75_clock for dates of any nanosecond, C75_readable for any fields that can be read from their own text"
  },
  {
   "property": "C76",
   "status": "proved",
   "theorems": [
    "C76_document",
    "C76_client",
    "C76_tool",
    "C76_output"
   ],
   "note": "assumes that the headers net/http sends on after a redirection, and the verdict of a CheckRedirect function, do not depend on the body (carries_alike, checks_alike); the Content-Length header Discover's client writes by hand does. How errors of the Go library print is a parameter and the same in both runs"
  },
  {
   "property": "C77",
   "status": "proved",
   "theorems": [
    "C77_decode",
    "C77_parse",
    "C77_pieces"
   ],
   "note": "the functions of bufio are modelled from Go's source; a reader that returns an error and later bytes after all is outside (delivering), and so is one that is itself a *bufio.Reader"
  },
  {
   "property": "C78",
   "status": "proved",
   "theorems": [
    "C78_exchange",
    "C78_sent",
    "C78_valid",
    "C78_clock"
   ],
   "note": "for requests and responses XML can carry and Go can represent, as in C27 and C75; the server reads what C74's listing says and may send something after the document; C78_clock for clocks of any nanosecond and answers whose fields are not exact"
  },
  {
   "property": "C79",
   "status": "proved",
   "theorems": [
    "C79_error",
    "C79_response_error",
    "C79_effect",
    "C79_retry",
    "C79_client"
   ],
   "note": "what a message's Valid method says is exactly C71; messages are values in the model, so that one object filed twice counts as two"
  },
  {
   "property": "C80",
   "status": "proved",
   "theorems": [
    "C80_decode",
    "C80_element",
    "C80_value",
    "C80_rest"
   ],
   "note": "Decoder.Token, Skip, unmarshal, unmarshalPath and unmarshalInterface are modelled from the source of encoding/xml; the scanner still turns the bytes up to the first syntax error into raw tokens beforehand (C64 and C77 are about how they arrive)"
  },
  {
   "property": "C81",
   "status": "proved",
   "theorems": [
    "C81_date_exact",
    "C81_date_range",
    "C81_date_reprint"
   ],
   "note": "time.Parse is modelled for the layouts of types.go; oddities of the code that the theorem makes visible: an hour of one digit, '.+12' and '.-00' as fractions, hours before the name UTC do not count, the sign of -0.50 is lost"
  },
  {
   "property": "C82",
   "status": "proved",
   "theorems": [
    "C82_amount_exact",
    "C82_amount_refused",
    "C82_amount_unique"
   ],
   "note": "Rat.SetString is modelled as in Go 1.17 and later. The theorem makes visible that 010/1 is eight while 010 is ten, that 1_000, 0x1F, 1e3 and 1/3 are amounts, and that 1,234.5 is refused"
  },
  {
   "property": "C83",
   "status": "proved",
   "theorems": [
    "C83_new_date_fixed",
    "C83_new_date_location",
    "C83_new_date_gap",
    "C83_new_date_text",
    "C83_gmt_round_trip"
   ],
   "note": "time.Date is modelled with its normalisation and its choice of the offset; a Location is the function that Location.lookup computes. Integers do not wrap in the model"
  },
  {
   "property": "C84",
   "status": "proved",
   "theorems": [
    "C84_one_reading",
    "C84_refused",
    "C84_helped",
    "C84_accepted",
    "C84_last_value",
    "C84_usage",
    "C84_usage_text"
   ],
   "note": "package flag is modelled with its argument loop and strconv.ParseBool and ParseUint. What it prints to standard error is not modelled"
  },
  {
   "property": "C85",
   "status": "partial",
   "theorems": [
    "C85_waits_partial",
    "C85_waits",
    "C85_long_delays_refuted"
   ],
   "note": "False for delays above 9223372036854 ms: the number of nanoseconds wraps around (C85_long_delays_refuted). What is waited for any delay is C85_waits"
  },
  {
   "property": "C86",
   "status": "proved",
   "theorems": [
    "C86_says_why",
    "C86_detect",
    "C86_status",
    "C86_dry",
    "C86_silent"
   ],
   "note": "The texts of errors made by Go's library (m_error) are arbitrary. C86_silent is a run of the exception. What package flag prints to standard error is not modelled"
  },
  {
   "property": "C87",
   "status": "proved",
   "theorems": [
    "C87_accepted",
    "C87_rejected",
    "C87_unique",
    "C87_discover",
    "C87_address",
    "C87_ordinary"
   ],
   "note": "net/url's Parse is modelled for https URLs (Url.v). For the two clients that use net/http the URL is handed on as it is; how net/http connects to it is not modelled. C87_empty_port: an empty port gives the Discover client an address with two colons"
  },
  {
   "property": "C88",
   "status": "proved",
   "theorems": [
    "C88_raw",
    "C88_possible",
    "C88_request",
    "C88_discover",
    "C88_retry_after_error"
   ],
   "note": "Which headers and cookies net/http copies to a redirected request, and how it resolves locations, is arbitrary (w_carry, w_resolve). C88_retry_after_error: the comment at vanguard_client.go:121-125 says the request is repeated only if there were no errors, but it is repeated after an error status too"
  },
  {
   "property": "C89",
   "status": "proved",
   "theorems": [
    "C89_alone",
    "C89_sends",
    "C89_needs_own_request"
   ],
   "note": "Request adds only the decoding of the answer to RequestNoParse, which uses nothing shared. Two requests that hold pointers to the same message are not modelled. C89_needs_own_request is the second half of the statement"
  },
  {
   "property": "C90",
   "status": "proved",
   "theorems": [
    "C90_interrupted",
    "C90_some_files",
    "C90_until_end",
    "C90_saved",
    "C90_loses"
   ],
   "note": "Writing is one operation that fails after any beginning of the body; the error of the deferred Close is ignored by the program and not modelled. C90_loses is the last sentence"
  },
  {
   "property": "C91",
   "status": "proved",
   "theorems": [
    "C91_dates",
    "C91_uids",
    "C91_random_uids",
    "C91_sgml_headers",
    "C91_xml_headers",
    "C91_statuses",
    "C91_responses"
   ],
   "note": "All functions of the library that index, slice or dereference are modelled a second time with operations that panic as in Go, and each is proved to return what the rest of the model says. Values the library cannot have read, such as a nil Message in a list or a call of a method on a nil pointer, and panics inside of the standard library are not covered; for the command line tool see C50"
  },
  {
   "property": "C92",
   "status": "partial",
   "theorems": [
    "C92_same_request",
    "C92_same_no_parse",
    "C92_left_open",
    "C92_read",
    "C92_parsed",
    "C92_no_parse",
    "C92_raw",
    "C92_basic",
    "C92_request_refuted"
   ],
   "note": "As stated false: the body of an answer whose status is not 200, and that of the answer that makes the Vanguard client ask again, are never closed by Request (C92_request_refuted). Proved is that these are the only ones, for every conversation, and that RequestNoParse never returns a closed body; the basic client's returns every open one. Connections without an answer, which the Discover client leaves open if writing fails, are not counted"
  },
  {
   "property": "C93",
   "status": "proved",
   "theorems": [
    "C93_messages",
    "C93_signon_request",
    "C93_signon_response",
    "C93_parts",
    "C93_response",
    "C93_all"
   ],
   "note": "The rules and texts are those of the code; four texts mislead, see the comments in SpecRules and the findings: a correction is refused for an invalid action when the action is valid (C37), ImageData is said to need a version above 220 when 220 is enough, a Transaction with two currencies is called pending, and a Balance with a name but no description is said to have neither"
  },
  {
   "property": "C94",
   "status": "proved",
   "theorems": [
    "C94_response",
    "C94_parse",
    "C94_messages",
    "C94_amount",
    "C94_amount_large"
   ],
   "note": "Structs that are fields of other structs, numbers, dates, currencies and enumerations have a fixed size and are not counted. The memory of the decoder itself and the nesting of elements that are skipped are not modelled. C94_amount_large shows that the bound on amounts can not be made proportional to the text"
  },
  {
   "property": "C95",
   "status": "proved",
   "theorems": [
    "C95_sends",
    "C95_account",
    "C95_detect"
   ],
   "note": "The first operation on the network counts as sending, whether it succeeds or not. The converse of C62, which says what is sent. C95_account: credit card and investment accounts need not be named. C95_detect: detect-settings, where each attempt is made a second time anonymously"
  },
  {
   "property": "C96",
   "status": "proved",
   "theorems": [
    "C96_response",
    "C96_parse",
    "C96_date",
    "C96_valid"
   ],
   "note": "The environment of the model is the local time zone (any function from instants to names and offsets) and the table of currencies; nothing else on the machine is read. C96_case: a response that is read and written again on a machine whose zone is named -05 can not be read any more (finding 32)"
  },
  {
   "property": "C97",
   "status": "proved",
   "theorems": [
    "C97_written",
    "C97_name",
    "C97_read"
   ],
   "note": "Whether the date that is read is the same instant: C09, C10, C67, C81_date_reprint. C97_case: names such as -05, ChST and +0545 are refused (finding 32)"
  },
  {
   "property": "C98",
   "status": "proved",
   "theorems": [
    "C98_date",
    "C98_amount",
    "C98_response"
   ],
   "note": "C98_case: a date that takes two rounds. Whether what it settles at is what was meant: C10 and C67 for dates, C07 for amounts"
  },
  {
   "property": "C99",
   "status": "proved",
   "theorems": [
    "C99_written",
    "C99_read"
   ],
   "note": "generalises C27 and C65_rewritten, where the fields are exact; what a date or an amount becomes: C07, C09, C10, C67, C98"
  },
  {
   "property": "C100",
   "status": "proved",
   "theorems": [
    "C100_bank",
    "C100_cc",
    "C100_inv",
    "C100_shown"
   ],
   "note": "the records of the model have no XMLName, so the functions are given the names; fmt's %+v of structs is modelled (AcctText.v)"
  }
 ]
}