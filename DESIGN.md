# A Rocq model of aclindsa/ofxgo

The model and the proofs are in `rocq/theories`. Files come in four kinds.

* **Model files** are small total Gallina functions. Every definition cites the
  lines of /repo it models. They contain no proofs.
  `GoStr GoNum GoUint GoRat GoTime Utf8 Xml Url Bufio` model the parts of the Go libraries that
  /repo uses. `Types Enums EnumTables Records StatusTable Common Messages Codec
  Schema Document Accessors Leaves Headers Wire Stream Marshal ErrText NewDate Clients Goroutines Panics Bodies AcctText Cli` model /repo
  (`Bufio` also has DecodeResponse on a reader).
* **Spec files** (`Spec*.v`) say what is claimed, without the model's functions
  where possible: decimal notation, the Gregorian calendar, trimming, validity of
  records, what bytes spell an element tree, what a header is, histories of
  network operations, what the command line tool ought to print.
* **Fact files** (`*Facts.v`, `CodecSim`, `SchemaInv`, `Closure*`, `AlikeDocs`, `Markup*`, `Sgml*`,
  `ContentDocs`, `ReadingLists`, `ReadingDocs`, `RequestReading`, `SecretCli`, `CliRuns`,
  `CliDry`, `CliDetect`) hold the
  lemmas. `Samples` and `CliSamples` hold concrete values for the examples.
* **Props files** (`Props*.v`) hold the theorems, named after the property
  (`C27_...`), each followed by `Print Assumptions`, and beside them `Example`s
  that show that the hypotheses are met by a non-trivial case.

`properties.jsonl` lists the properties, `MANIFEST.json` which theorems settle
which property. Both are made by scripts in `tools/`.

## Trusted base

1. Coq 8.16.1's kernel, including its virtual machine (`vm_compute` is used in
   proofs over finite tables and in the examples).
2. Axioms: none. `Print Assumptions` prints "Closed under the global context" for
   every theorem in the Props files. Of the libraries only Coq's standard library
   is used. (`vcheck` lists seven names `Coq.ssr.ssrunder.Under_rel.*` as library
   axioms: they are fields of a module type in Coq's own ssreflect files, which
   some standard library file loads. No theorem depends on them.)
3. The model. It was written by reading /repo as text and was never run against
   the Go code. The tables and struct definitions (`EnumTables`, `Records`,
   `Schema`, `StatusTable`, `Accessors`, `Leaves`) are generated by the scripts in
   `tools/` from the Go sources; the scripts are part of the trusted base.
4. The behaviour of Go libraries that are not in /repo. They are modelled from
   knowledge of their sources (Go 1.15 to 1.17; the two differ in nothing that is
   used here but for details named in the comments):
   * `encoding/xml` and its fork github.com/aclindsa/xml: struct tags with paths
     (`a>b`), omitempty, escaping, indentation, the scanner, the rules for open
     elements, `AutoCloseAfterCharData` (a listed element ends at the first token
     after its start tag that is neither text nor its own end tag),
     `SetDisableAutoClose` (no end tag for a listed element), `CarriageReturn`;
   * `strconv`, `fmt`, `strings`, `bytes`, `regexp` (for the two expressions in
     /repo), `math/big.Rat`, `time.Parse` and `Time.Format` for the layouts in
     /repo, `unicode.IsSpace`, `unicode/utf8`;
   * `bufio.Reader`, `net/url.Parse`, `net/http.Client.Do` (redirections), `flag`;
   * `golang.org/x/text/currency.ParseISO`.

### Modelling decisions

* A Go string or byte slice is a list of bytes.
* `int64` is `Z` with range checks where the code has them; `uint` enum values are
  `N`; `big.Rat` is `Q` in lowest terms; `time.Time` is an instant in nanoseconds
  with the offset and name of its zone.
* Errors are values. Their texts are kept where a property is about them
  (validation).
* A method that changes its receiver also returns the receiver.
* The random source, the clock, the terminal, the network, the file system, the
  local time zone and the currency table are answered by the environment. Programs
  that use them are trees of operations with a continuation for every possible
  answer; theorems quantify over all runs (`runs`, `io_runs`).

### Parts of /repo that are modelled

| file | modelled in | what |
|------|-------------|------|
| types.go | Types | everything |
| constants.go | Enums, EnumTables | the one template all 40 types follow, and the tables |
| common.go | Common, StatusTable, Headers | everything |
| leaf_elements.go | Leaves | everything |
| signon.go, bank.go, creditcard.go, invstmt.go, profile.go, seclist.go, signup.go | Records, Schema, Messages, Accessors, Codec, AcctText | the structs with their tags; Name, Valid, Type and String; the methods of the interfaces InvTransaction, Position, OpenOrder and Security; all hand-written MarshalXML and UnmarshalXML methods |
| request.go, response.go, util.go | Document (element trees), Headers and Wire (bytes), Stream (tokens) | everything |
| client.go, basic_client.go, vanguard_client.go, discovercard_client.go | Clients, Url; Goroutines (as steps on shared memory) | everything but the choice of TLS ciphers |
| cmd/ofx/*.go | Cli | everything but what goes to standard error |
| doc.go, generate_constants.py, tests | no | |

### What is simplified or left out

* The values of `XMLName` fields are dropped; slices of interface types hold only
  the types of the library that implement the interface, by value.
* XML attributes and name spaces are dropped (no struct has an attribute field,
  and /repo only looks at local names). Element names with letters outside ASCII
  are refused by the model's scanner; Go accepts some.
* The end of the input, a syntax error and an error of the reader are not told
  apart: for every user in /repo all three are errors.
* Cleaning of cookie values, the headers and cookies net/http carries over to a
  redirected request (`w_carry`, an arbitrary function), resolution of relative
  locations (`w_resolve`, an arbitrary function), partial writes,
  TLS.
* Of the command line tool: the texts of errors (`m_error`, arbitrary) and
  standard error.
* Memory and integer overflow of lengths.

## Method, property by property

| id | statement about | proof |
|----|-----------------|-------|
| C01-C04 | all 40 enumerations (`In t all_enums`), all values and strings | generic lemmas from "names distinct and trimmed", which is computed for the tables; C01_enum_identifiers ties names to Go identifiers |
| C05 | all byte strings, all integers | induction over digit strings |
| C06-C08 | all decimal literals, all rationals | induction over digits, rounding arithmetic |
| C09-C12 | all civil times, zones, byte strings around them | bijection between days and civil dates; induction over the layouts. C10 is refuted |
| C13-C14, C17 | all byte strings, any currency table | characterisation of TrimSpace by Unicode code points |
| C15, C16 | all byte strings, all results of the random source | injectivity of hexadecimal notation |
| C18, C19, C37-C40 | all records, all versions | case analysis; tables by computation lifted to all codes. C37 and C40 are refuted as stated, with the exact condition proved |
| C20-C23, C55 | all byte strings | the regular expression as a backtracking matcher, proved sound and complete against the grammar of a header; induction over the attribute loop |
| C24-C26, C32, C47, C54 | all requests, responses, element trees | induction over message lists; decoding is characterised by an equivalence (C26_decode) |
| C27 | all representable responses | round trip of the generic codec by induction over the type descriptions; composed with the byte level |
| C28, C29, C31 | all trees, all subsets of end tags, all texts | an independent relation "these bytes spell this tree" (SpecXml); the printer is proved to produce spellings, the scanner to read every spelling; induction over trees |
| C30 | the generated type descriptions | computation over the finite schema |
| C33-C36, C53 | all lists | induction, from the codec |
| C41-C46, C56 | all runs of all clients, any answers | induction over the redirections; case analysis over histories. C41 and C43 are refuted as stated |
| C48-C50, C57-C63 | all runs of the tool for all arguments | induction over loops and argument lists. C50 and C61 are refuted as stated |
| C51, C52 | all responses | refuted as stated, what holds is proved |
| C64 | all prefixes and continuations of documents | the scanner and the tree reader are monotone in their input; induction over spellings |
| C65 | all byte strings | induction over the type descriptions, for all trees; inverse of the translation between records and generic values (`SchemaInv`, generated) |
| C66 | all pairs of documents related by `alike` | what an element can change in a struct is a set of paths; changes at different paths commute; induction over `alike` |
| C67 | all civil times and offsets | arithmetic. Refuted as stated, with the exact effect proved |
| C68 | all byte strings | the scanner and the tree reader against an inductive grammar over bytes, in both directions: induction over the length of the input, and over the grammar |
| C69 | all requests and responses | induction over the printed tree |
| C70 | all byte strings | follows from C68 for XML. Refuted for SGML, with a document whose statement is lost whatever comes after the stray tag |
| C71 | all messages and versions | case analysis over the checks, induction over lists; the rules are in `SpecValid` |
| C72 | all requests and responses | the content of each element is listed by hand in `SpecContent`, from the OFX point of view, and the generic encoder over the type descriptions gives the same; together with C69 this determines every byte |
| C73 | all byte strings | as C68, with the grammar in `SpecSgml`: elements that end without an end tag, or with the end tag of an element around them. Induction over the open elements |
| C74 | all byte strings | the value of each field is listed by hand in `SpecReading`, without the decoder; the generic decoder over the type descriptions is proved to give the same by splitting a walk over the children into one walk per field; composed with C26, C68 and C73 |
| C75 | all requests | the listing of C74 is extended to the messages of requests; C28 gives the tree that was written, the listing is shown to be a function of the tree; the induction of C99 for fields that are not exact |
| C76 | all requests, clients, command lines, pairs of passwords and answers | two runs are compared: a relation on the programs of the client and the tool (same operations, related for the same answers), closed under composition, proved for every command and sound for histories; the document is split at USERPASS by the layout of C69 |
| C77 | all byte strings and readers | readers are coinductive; bufio.Reader (fill, Peek, ReadSlice, UnreadByte, ReadByte) is modelled statement by statement; an invariant says which bytes are still to come, and each loop has a decreasing measure |
| C78 | all clients, requests, server functions and histories | the round trips of C27 and C75 composed with the histories of C46 and C56, and those of C99 and C75_clock |
| C79 | all requests and responses, valid or not | Marshal with its error and its effect on the request (`Marshal`), by induction over messages and sets; idempotence of both defaults |
| C80 | all input, types, decoder states | a second model of decoding on the level of tokens (`Stream`): the stack of the decoder, its EOF marks, and the loops of /repo; a recursive descent reader of the content of one element links it to the tree model: induction over the number of tokens, mutually for values and fields |
| C81 | all byte strings, local zones | `SpecDateText` says what a date text is by an inductive relation; each layout element is inverted, clock texts are shown to be read in one way only, and the zone value appended by the code to be the last two words of what time.Parse sees |
| C82 | all byte strings | `SpecAmountText` says what an amount text is by inductive relations; the scanning loop is shown to take the longest run of digits and underscores, and the separator rule to be equal to grouping; the scaling by fives and twos is compared with powers of rationals |
| C83 | all fields, all locations with periods longer than twice the largest offset | `NewDate.v` models time.Date; normalisation is division with remainder; the guessed offset is right because at most one change of the offset lies between the guess and the instant |
| C84 | all sub-commands and argument lists | the reading is given as a relation (`SpecFlags`); the model's argument loop computes it, so it is total and unique; the settings depend only on the last values |
| C85 | all runs of the tool | a structural invariant of the programs: every wait is the converted delay; `GoUint` models strconv.ParseUint, proved equal to the numbers of C82. Refuted as stated for huge delays |
| C86 | all runs of the tool | the messages and when they are true are given as an inductive relation (`SpecErrors`); every failing run of the programs is inverted step by step; exit statuses by a structural invariant |
| C87 | net/url and the clients | the grammar of URLs as inductive relations (`SpecUrl`); the parser is proved equivalent to it in both directions, by induction on the text, and the clients' histories are inverted |
| C88 | http.Client.Do and the clients | the histories are given as an inductive relation (`SpecHttp`) and proved equal to the runs of the clients, by induction on the number of requests the http.Client still allows |
| C89 | RequestNoParse as a sequence of reads and writes of a shared memory (`Goroutines`), any number of them interleaved (`SpecGoroutines`) | a goroutine that owns its request is simulated by itself alone, by induction on the interleaving; alone it refines the sequential model of `Clients` |
| C90 | histories cut off anywhere, also inside a network conversation, and the contents of files after them (`SpecCrash`) | every beginning can be completed; in complete histories file operations come after all network operations (C58, C62), and all commands but downloads have none |
| C91 | the functions that index, slice or dereference, with operations that panic (`Panics`) | each returns exactly what its total counterpart gives; the regular expressions give as many groups as they have |
| C92 | the clients once more, as programs that receive answers and close their bodies (`Bodies`) | they have the conversations and results of `Clients`; induction on the program gives the bodies that are open at the end |
| C93 | the rules as a list of propositions with texts (`SpecRules`), the first that is broken | every Valid method is composed of checks; one lemma for each way to compose them |
| C94 | a size of values, defined on the Go types (`SpecSize`), against the length of the document | the grammars of C68 and C73 give a bound on the tree; induction on the tree for what is decoded from it; the texts of amounts from C82 |
| C95 | runs of `main` against a list of conditions on the flags (`SpecReady`) | each stage of a run succeeds exactly under its conditions (C24, C62, C86, C87); there are no other conditions |
| C96 | reading with two environments; responses without the names of zones (`SpecZone`) | a relation between two runs of the decoder, by induction on the document and on the schema; Valid looks at dates only as instants |
| C97 | the printed zone against the texts that are accepted (C81) | the name in a zone text is what follows its only colon; case analysis of the accepted zones |
| C98 | the printed offset as it is read (C67), the printed amount (C07) | minutes modulo 3 fall to 0 in two steps; the zone name is a fixed point after one; for responses, C99 three times |
| C99 | the codec of C27 without exact leaves, SpecAgain.v | the induction over schemas of C27, with every leaf as it is read; fields that were read are readable (C65, C97) |
| C100 | fmt's %+v of the three structs of account information (AcctText.v), SpecAcctText.v | names of fields are fixed and end at a colon, values have no spaces (texts of dates are read back, those of amounts are decimal notation, the names of these enumerations are listed), so the text can be cut at spaces in one way |

Names ending in `_refuted` are proofs that the property is false of the code;
names ending in `_partial` are the part that holds. MANIFEST.json says what is
missing.

## Findings

Places where the code does not do what a user would expect. Those with a property
id are theorems.

1. C10: the sign of zone offsets between -1h and 0 is lost when printing and when
   reading (types.go:135, 173-181).
2. C37: the correction check of Transaction.Valid is inverted (bank.go:143).
3. C40: Currency.Valid looks only at the low 64 bits of an integer rate
   (common.go:366): 2^64 is "zero".
4. C41: net/http follows redirections to http:// and repeats the body, with the
   password, after 307 and 308.
5. C43: the Discover client writes the decoded path into the request line; a URL
   with %0D%0A adds header lines. The query is dropped. An error when writing the
   headers is ignored (discovercard_client.go:28-35, 72).
6. C50: the tool dereferences nil for statements without a transaction list, credit
   card transactions without name and payee, investment statements without balance
   or transaction list.
7. C51: Marshal ignores writeHeader's error, so a document without header is
   returned for an invalid version (request.go:84, response.go:418).
8. C52: LoanInfo has the XML name VESTINFO (invstmt.go:1393): LOANINFO elements
   make decoding fail, and loans are written under the wrong name.
9. C61: transactions-inv hides balances that are not whole numbers
   (invtransactions.go:71). It also prints no message when the request fails.
10. C36: MessageSet.Name has no tag, so a spurious element `Name` is written in each
    message set of a profile; its text is also written as an element name without
    escaping.
11. C42: the Vanguard client retries when the content length is unknown (-1) and
    whatever the status of the first answer; the retry has no User-Agent header.
12. C48: detect-settings exits with 0 when nothing works. A dry run whose request
    cannot be marshalled exits with 0 (C57).
13. C30: five request options that came with OFX 2 (and SUBACCTFUND and other
    elements of responses) are missing from the list of simple elements, so they
    are written with end tags in SGML documents, and unclosed ones are not read.
14. C55/C22: SGML headers of more than 1024 bytes are refused; an XML document with
    the text OFXHEADER: in its first kilobyte before OFXHEADER= is read as SGML.
15. C23: a repeated VERSION attribute is accepted, the last one wins.
16. C46: the response that ParseResponse returns together with a validation error is
    dropped by Client.Request.
17. Response.Marshal always closes tags, also for SGML versions (legal, but unlike
    Request.Marshal).
18. The nil check in guessVersion is unreachable (response.go:192).
19. DebtInfo's CALLTYPE tag says `omitempt` (seclist.go), and omitempty has no effect
    on fields of struct kind (Amount, Date).
20. C61: printInvBuy prints no space between date and units (invtransactions.go:174-183),
    nor is there one after the date of a closed option (invtransactions.go:96).
21. C67: a zone that is not a multiple of three minutes, which reading accepts
    (`[5.33]` is +05:19), is written with two decimals of an hour, so that the date
    read again is a minute off (types.go:138, 168-181).
22. C70: in an SGML document an end tag that matches no open element ends the whole
    document without an error, and the rest of it is ignored (response.go:302).
23. C85: `-delay` accepts any 64-bit number, but the conversion to nanoseconds wraps
    around: 9223372036855 ms is a negative duration, so nothing is waited
    (detect_settings.go:115).
24. C86: transactions-inv prints nothing when its request fails
    (invtransactions.go:53-56); all other failures are reported.
25. C87: for a URL with an empty port (https://host:/) the Discover client connects
    to host::443 (discovercard_client.go:60-62), which is not an address. The
    query of a URL is dropped (discovercard_client.go:45).
26. C88: the Vanguard client repeats its request after an error status too
    (vanguard_client.go:126), although the comment before says it does not; the
    repeated request has no User-Agent (vanguard_client.go:91).
27. C90: a download empties its output file before it writes the answer to it,
    so a failure at this point (`os.Create` then `io.Copy`) loses the earlier
    download; the truncated file stays behind after exit status 1.
28. C92: `Request` returns before its deferred `Close` if `RequestNoParse` gave a
    response with an error, so the body of every answer that is not 200 stays open
    and no one can close it (client.go:96-101). The Vanguard and Discover clients
    also drop such a response, and the Vanguard client drops the answer that made
    it ask again (vanguard_client.go:102-104, 128-135, discovercard_client.go:93-95).
29. C93: texts of validation errors that mislead: "CorrectAction invalid" for a valid
    action (bank.go:143), "only supportd for OFX > 220" although 220 will do
    (bank.go:165), "for Pending Transaction" for an ordinary one (bank.go:177), and
    "Name and Desc not supplied" if one of them is (bank.go:288).
30. C94: nine bytes of an amount, `1e1000000`, are read as an integer of more than three
    million bits, and marshalling it again writes a million digits. A document with many
    such amounts takes memory and time out of proportion to its size. (Older versions of
    math/big have no limit on exponents at all; the model has the limits.)
31. C95: the commands for credit cards and investment accounts do not insist on an account.
    Without `-acctid` (and `-brokerid`) they send a request, with the password, for an
    account without a number; for bank accounts the request is refused before it is sent.
32. C96: a date with an offset but without a zone name gets the name of the local zone if that
    has the same offset. The name is written by Marshal, so that the bytes depend on the machine.
    Many zones have names such as `-05`; ParseResponse refuses a date with such a name, so that a
    response that was read and written in such a zone can not be read again. C97 says which names
    can be read. The clients put the local time into DTCLIENT, with such a name as well.
33. C98: because of finding 21 a date a minute before 0001-01-01T00:00:00Z becomes that instant when
    it is written and read, which the Valid methods take for a date that is missing: a valid
    response may be written as one that is invalid (C98_invalid_case).
34. C100: the texts of account information are not quoted, so that different cards can print the same
    (C100_space). Booleans print as true and false there, not as Y and N, because Boolean.String has a
    pointer receiver (types.go:271).

## Tests of the model

`Fidelity.v` and `FidelityScalars.v` are not proofs of properties. They evaluate the
project's own test cases (documents and scalar values in /repo's `*_test.go` files,
converted by `tools/gen_fidelity.py`) in the model and check that the model gives the
result the tests expect of the code.

## Wrong programs

`seeded/mutants.py` holds edits of the model that imitate realistic bugs.
`tools/mutate.py` applies each in a scratch copy, replaces every proof that fails
by `Admitted`, and asks `Print Assumptions` which theorems rest on them.
`seeded/LOG.jsonl` has one line for each attempt.
