"""Statuses and notes for MANIFEST.json, by property."""
STATUS = {}
NOTE = {
 "C06": "math/big refuses more than 1000000 fractional digits of a nonzero number; the theorem states that exception exactly",
 "C10": "refuted: the statement is false of the code (types.go:173-181 loses the sign); C10_negative_offset_sign_lost says what happens instead, for every such date",
 "C37": "refuted: bank.go:143 has the test inverted; C37_transaction_accepted is the exact condition the code checks, C37_no_correction_partial the part of the property that holds",
 "C40": "refuted: common.go:366 looks at the low 64 bits of an integer rate only; the property holds for numerators below 2^64 (C40_currency_valid_partial), C40_currency_accepted is the exact condition",
 "C52": "refuted as a round trip (C52_loans_lost_refuted); what holds is that such documents are rejected",
 "C27": "for fields XML can carry (response_clean) and Go can represent (response_representable); C27_tree is the step between values and trees",
 "C30": "the five options that came with OFX 2 are not in the list of simple elements (ofx2_options); harmless, as they are always written with an end tag in OFX 2 documents, but a version 1 request that sets them is written with end tags too",
 "C51": "refuted: writeHeader's error is dropped (request.go:84, response.go:418); what holds is that the library does not read such a document",
 "C38": "'valid transaction' is the condition the code checks (transaction_accepted, see C37)",
 "C41": "refuted as stated: net/http follows redirections, also to http URLs, and repeats the body after 307 and 308 (C41_redirect_refuted); the rest holds: nothing is sent for a URL without https, and any other request goes where an answer redirected it",
 "C43": "refuted for URLs with percent-encoded line ends in the path (C43_refuted): discovercard_client.go:28-35 writes the decoded path; holds for paths without line ends and spaces, in particular without line ends if the URL has no percent sign (C43_plain_path)",
 "C48": "each attempt comes with the exact condition for something being sent at all; if no combination works the exit status is 0 all the same (detection ends with Finished, main with Exited 0)",
 "C50": "refuted: a statement without a list of transactions, a credit card transaction without name and payee, and an investment statement without balance or list crash the tool; C50_crash_partial and C50_unprintable say exactly when it crashes",
 "C57": "for commands that accept -dryrun; if the request cannot be marshalled nothing is sent, and the dry run prints the error and exits with 0",
 "C61": "refuted for the balance: invtransactions.go:71 shows it only if it is a whole number that is not a multiple of 2^64 (C61_balance_refuted), and there is no space between the date of a purchase, or of a closed option, and what follows (C61_space_refuted); C61_investments_partial gives the exact text of every line",
 "C64": "C64_truncated_response needs the names of message sets in profiles to be element names (response_named), as everything that is written",
 "C65": "assumes that XXX, which currency.ParseISO knows, is a currency; exact_field is a multiple of 10^-100 for amounts and date_ok for dates",
 "C66": "the list of message set profiles (MSGSETLIST) is left alone by alike",
 "C67": "refuted for zones that are not multiples of three minutes (C67_drift_refuted); C67_reread_partial, C67_kept, C67_near and C67_minutes say exactly what happens for every offset outside of C10",
 "C23": "C68 says the same of the bytes of a document, without tokens",
 "C68": "element names are ASCII; Go accepts some names with other letters, none of which OFX has",
 "C69": "C69_response needs the names of message sets in profiles to be element names (response_named)",
 "C70": "refuted for SGML: DecodeResponse switches Strict off (response.go:302), and an end tag that matches nothing then closes everything up to OFX; holds for XML; C73_ending says where a document ends",
 "C71": "the rules are in SpecValid.v (message_ok); a valid bank transaction or currency is what the code checks, see C37 and C40",
 "C72": "C72_message is about messages MarshalXML does not refuse (encodable); C72_response needs the names of message sets in profiles to be element names (response_named)",
 "C73": "element names are ASCII, as in C68; C73_ending sharpens C70",
 "C74": "the listing is SpecReading.v; how the text of a leaf becomes a value is C02, C05, C06, C09-C11, C13, C14, C17, C81 and C82",
 "C75": "for fields XML can carry (request_clean) and Go can represent (request_representable), as in C28; C75_clock for dates of any nanosecond, C75_readable for any fields that can be read from their own text",
 "C76": "assumes that the headers net/http sends on after a redirection, and the verdict of a CheckRedirect function, do not depend on the body (carries_alike, checks_alike); the Content-Length header Discover's client writes by hand does. How errors of the Go library print is a parameter and the same in both runs",
 "C77": "the functions of bufio are modelled from Go's source; a reader that returns an error and later bytes after all is outside (delivering), and so is one that is itself a *bufio.Reader",
 "C78": "for requests and responses XML can carry and Go can represent, as in C27 and C75; the server reads what C74's listing says and may send something after the document; C78_clock for clocks of any nanosecond and answers whose fields are not exact",
 "C79": "what a message's Valid method says is exactly C71; messages are values in the model, so that one object filed twice counts as two",
 "C80": "Decoder.Token, Skip, unmarshal, unmarshalPath and unmarshalInterface are modelled from the source of encoding/xml; the scanner still turns the bytes up to the first syntax error into raw tokens beforehand (C64 and C77 are about how they arrive)",
 "C81": "time.Parse is modelled for the layouts of types.go; oddities of the code that the theorem makes visible: an hour of one digit, '.+12' and '.-00' as fractions, hours before the name UTC do not count, the sign of -0.50 is lost",
 "C82": "Rat.SetString is modelled as in Go 1.17 and later. The theorem makes visible that 010/1 is eight while 010 is ten, that 1_000, 0x1F, 1e3 and 1/3 are amounts, and that 1,234.5 is refused",
 "C83": "time.Date is modelled with its normalisation and its choice of the offset; a Location is the function that Location.lookup computes. Integers do not wrap in the model",
 "C84": "package flag is modelled with its argument loop and strconv.ParseBool and ParseUint. What it prints to standard error is not modelled",
 "C85": "False for delays above 9223372036854 ms: the number of nanoseconds wraps around (C85_long_delays_refuted). What is waited for any delay is C85_waits",
 "C86": "The texts of errors made by Go's library (m_error) are arbitrary. C86_silent is a run of the exception. What package flag prints to standard error is not modelled",
 "C87": "net/url's Parse is modelled for https URLs (Url.v). For the two clients that use net/http the URL is handed on as it is; how net/http connects to it is not modelled. C87_empty_port: an empty port gives the Discover client an address with two colons",
 "C88": "Which headers and cookies net/http copies to a redirected request, and how it resolves locations, is arbitrary (w_carry, w_resolve). C88_retry_after_error: the comment at vanguard_client.go:121-125 says the request is repeated only if there were no errors, but it is repeated after an error status too",
 "C89": "Request adds only the decoding of the answer to RequestNoParse, which uses nothing shared. Two requests that hold pointers to the same message are not modelled. C89_needs_own_request is the second half of the statement",
 "C90": "Writing is one operation that fails after any beginning of the body; the error of the deferred Close is ignored by the program and not modelled. C90_loses is the last sentence",
 "C91": "All functions of the library that index, slice or dereference are modelled a second time with operations that panic as in Go, and each is proved to return what the rest of the model says. Values the library cannot have read, such as a nil Message in a list or a call of a method on a nil pointer, and panics inside of the standard library are not covered; for the command line tool see C50",
 "C92": "As stated false: the body of an answer whose status is not 200, and that of the answer that makes the Vanguard client ask again, are never closed by Request (C92_request_refuted). Proved is that these are the only ones, for every conversation, and that RequestNoParse never returns a closed body; the basic client's returns every open one. Connections without an answer, which the Discover client leaves open if writing fails, are not counted",
 "C93": "The rules and texts are those of the code; four texts mislead, see the comments in SpecRules and the findings: a correction is refused for an invalid action when the action is valid (C37), ImageData is said to need a version above 220 when 220 is enough, a Transaction with two currencies is called pending, and a Balance with a name but no description is said to have neither",
 "C94": "Structs that are fields of other structs, numbers, dates, currencies and enumerations have a fixed size and are not counted. The memory of the decoder itself and the nesting of elements that are skipped are not modelled. C94_amount_large shows that the bound on amounts can not be made proportional to the text",
 "C95": "The first operation on the network counts as sending, whether it succeeds or not. The converse of C62, which says what is sent. C95_account: credit card and investment accounts need not be named. C95_detect: detect-settings, where each attempt is made a second time anonymously",
 "C96": "The environment of the model is the local time zone (any function from instants to names and offsets) and the table of currencies; nothing else on the machine is read. C96_case: a response that is read and written again on a machine whose zone is named -05 can not be read any more (finding 32)",
 "C97": "Whether the date that is read is the same instant: C09, C10, C67, C81_date_reprint. C97_case: names such as -05, ChST and +0545 are refused (finding 32)",
 "C98": "C98_case: a date that takes two rounds. Whether what it settles at is what was meant: C10 and C67 for dates, C07 for amounts",
 "C99": "generalises C27 and C65_rewritten, where the fields are exact; what a date or an amount becomes: C07, C09, C10, C67, C98",
 "C100": "the records of the model have no XMLName, so the functions are given the names; fmt's %+v of structs is modelled (AcctText.v)",
}
