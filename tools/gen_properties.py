import json
P=[]
def p(title,statement,quantifier,why,anchors):
    P.append(dict(id="C%02d"%(len(P)+1),title=title,statement=statement,quantifier=quantifier,why_tests_cant=why,anchors=anchors))
p("Enum names and values are in one-to-one correspondence",
  "For every OFX enumeration type (account types, transaction types, versions, ...) constructing a value from the name that String() prints for a valid value gives back exactly that value, and two different valid values never print the same name.",
  "every one of the 40 enumeration types and every uint value of each",
  "the values are unbounded uints and the generated tests only sample one literal per type and name",
  ["constants.go: every T.String, T.FromString, NewT","generate_constants.py"])
p("Enum parsing accepts exactly the known names, up to surrounding white space",
  "Decoding an enumeration from text succeeds if and only if the text with surrounding white space removed equals one of the names of the type; on success the value is valid and prints that name, and on failure the variable holds the invalid value 0.",
  "every enumeration type and every input string",
  "the set of input strings is infinite",
  ["constants.go: T.FromString, T.UnmarshalXML"])
p("Enum marshalling never emits an invalid name",
  "Marshalling an enumeration value emits an element holding the name of the value when it is valid, and emits nothing at all (no error) when it is not.",
  "every enumeration type and every uint value",
  "the values are unbounded",
  ["constants.go: T.MarshalXML, T.Valid"])
p("OFX versions are ordered like their numbers and split into SGML and XML at 200",
  "Comparing two valid OfxVersion values with < agrees with comparing the numbers they print; every valid version is either <= OfxVersion160 (SGML header family) or >= OfxVersion200 (XML header family).",
  "every pair of valid versions",
  "the code relies on the order at many places for all pairs; a test shows single pairs",
  ["constants.go: OfxVersion*, ofxVersions", "common.go: writeHeader", "request.go: Request.Marshal"])
p("Int text codec is exact on the whole int64 range and rejects everything else",
  "Decoding the decimal text of any int64, with any white space around it, yields that number; decoding succeeds only on text that denotes an integer in [-2^63, 2^63-1] as an optionally signed non-empty digit string, and then yields exactly the denoted number (never a wrapped value).",
  "every int64 and every input string",
  "2^64 values and infinitely many strings, including overflow boundaries",
  ["types.go: Int.UnmarshalXML"])
p("Amount decoding is exact for decimal notation with point or comma",
  "Decoding an optionally signed decimal number with an optional fractional part introduced by '.' or ',' yields exactly the rational number it denotes, for any number of digits up to the limit of math/big (one million fractional digits, beyond which decoding fails); surrounding white space does not matter.",
  "all decimal literals of any length",
  "unbounded digit strings; no rounding may ever occur",
  ["types.go: Amount.UnmarshalXML"])
p("Amount printing is exact up to 100 decimals and round-trips",
  "If an amount is a multiple of 10^-100, its printed form decodes to the same amount. Otherwise the printed form denotes the nearest multiple of 10^-100 (ties away from zero), so the error is at most half of 10^-100.",
  "every rational number",
  "the rationals are infinite",
  ["types.go: Amount.String, Amount.MarshalXML, Amount.UnmarshalXML"])
p("Amount equality is equality of numbers",
  "Equal on amounts holds exactly when the two rationals have the same value, independently of how they were written; it is an equivalence relation.",
  "every pair/triple of amounts",
  "infinitely many pairs",
  ["types.go: Amount.Equal"])
p("Dates survive printing and parsing",
  "For every date whose year is 0000..9999, whose time is a whole number of milliseconds, whose zone offset is a whole multiple of three minutes and not strictly between -1h and 0, and whose zone name is empty (for a nonzero offset) or an abbreviation time.Parse accepts, decoding the printed form yields the same instant, offset and zone name (an empty name may become the name of the process' local zone when that zone has the same offset at that instant).",
  "every instant, offset and zone name in the stated set",
  "billions of instants and offsets",
  ["types.go: Date.String, Date.MarshalXML, Date.UnmarshalXML, ofxDateFormats, ofxDateZoneRegex"])
p("Date zone offsets between -1h and 0 keep their sign",
  "Decoding the printed form of a date with a negative offset of less than one hour yields the same instant.",
  "every date with such an offset",
  "needs all offsets; the code is expected to violate it (the sign is lost)",
  ["types.go: Date.String, Date.UnmarshalXML"])
p("Dates without a zone are GMT and missing time fields are zero",
  "Decoding YYYYMMDD, YYYYMMDDHH, YYYYMMDDHHMM, YYYYMMDDHHMMSS or YYYYMMDDHHMMSS.XXX without a zone yields that civil time in zone GMT with the missing fields zero; impossible civil times (month 13, 30 February, hour 24, ...) are rejected.",
  "every civil time in years 0..9999",
  "every calendar day and time of four digit years",
  ["types.go: Date.UnmarshalXML, ofxDateFormats"])
p("Date equality compares instants",
  "Equal on dates holds iff the two dates denote the same instant regardless of zone; it is an equivalence relation and converting a date to another zone keeps it equal.",
  "every pair/triple of dates",
  "infinitely many pairs",
  ["types.go: Date.Equal"])
p("Booleans are exactly Y and N",
  "Decoding succeeds iff the trimmed text is Y or N, giving true or false respectively; encoding writes Y or N, and encode then decode is the identity.",
  "every string and both values",
  "infinitely many strings",
  ["types.go: Boolean.UnmarshalXML, Boolean.MarshalXML"])
p("Strings and UIDs are trimmed, nothing else",
  "Decoding a String or UID removes exactly the longest leading and trailing runs of Unicode white space and keeps everything between; decoding an already trimmed string is the identity, so encode then decode is the identity exactly on trimmed strings.",
  "every byte string",
  "infinitely many strings, multi-byte white space",
  ["types.go: String.UnmarshalXML, UID.UnmarshalXML"])
p("UID checks are consistent",
  "Valid holds iff the UID has 1 to 36 bytes; RecommendedFormat implies Valid and holds iff it has 36 bytes with hyphens at positions 8, 13, 18 and 23.",
  "every byte string",
  "infinitely many strings",
  ["types.go: UID.Valid, UID.RecommendedFormat"])
p("RandomUID returns a well-formed UUID that keeps all the randomness",
  "Whatever 16 bytes the random source delivers, the UID has the recommended format with lower-case hexadecimal digits in all other positions, and different bytes give different UIDs; a failing or short read gives an error and no UID.",
  "all 2^128 random byte strings and all failure results of the random source",
  "2^128 inputs",
  ["types.go: RandomUID"])
p("Currency symbols round-trip and XXX is the only invalid one",
  "NewCurrSymbol accepts the same symbols as decoding (after trimming); encoding then decoding a currency gives an equal currency; Valid fails exactly for XXX.",
  "every currency code table with the documented behaviour and every string",
  "the strings are infinite and the table is external",
  ["types.go: CurrSymbol.*"])
p("Status.Valid accepts exactly the known codes with their severity",
  "A status is valid iff its code is in the OFX table and its severity is the one the table gives for that code; CodeMeaning and CodeConditions succeed for exactly the same codes and return the table's text; every severity in the table is one of INFO, WARN, ERROR.",
  "every int64 code, every severity string",
  "2^64 codes times infinitely many strings",
  ["common.go: statusMeanings, Status.Valid, Status.CodeMeaning, Status.CodeConditions"])
p("SignonRequest.Valid accepts exactly well-formed credentials and only defaults the language",
  "The call succeeds iff USERID has 1..32 bytes, exactly one of USERPASS/USERKEY is non-empty, USERPASS has at most 32 bytes, USERKEY at most 64, the language is empty or 3 bytes, APPID has 1..5 and APPVER 1..4 bytes. On success the only change to the request is an empty language becoming ENG; calling it again succeeds and changes nothing.",
  "every SignonRequest and version",
  "infinitely many field strings",
  ["signon.go: SignonRequest.Valid"])
p("Written headers are recognised with the right dialect and version",
  "For every valid version and either newline setting, a document that starts with the header written for that version is recognised as SGML exactly for versions below 200, and reading its header yields that version and leaves the reader exactly at the first byte of the body.",
  "every valid version, newline setting and body",
  "bodies are unbounded",
  ["common.go: writeHeader","response.go: guessVersion, readSGMLHeaders, readXMLHeaders"])
p("SGML header parsing is sound",
  "If reading an SGML header succeeds, the consumed text is the nine key:value lines in the fixed order separated by optional white space, the OFXHEADER value is 100, DATA is OFXSGML, SECURITY is NONE or TYPE1, COMPRESSION is NONE and the version is the one of the VERSION value and at most 160.",
  "every input byte sequence",
  "infinitely many headers, banks vary the white space",
  ["response.go: readSGMLHeaders"])
p("SGML header parsing tolerates any white space between keys and values",
  "A header whose nine keys appear in order with legal values is accepted whatever (possibly empty) white space is put after colons and between entries, as long as it is read within the 1024-byte window and the values cannot be confused with the next key.",
  "every choice of white space and values",
  "infinitely many layouts; the matcher backtracks",
  ["response.go: readSGMLHeaders"])
p("XML header parsing is sound",
  "If reading the XML declaration and OFX processing instruction succeeds then OFXHEADER=\"200\" and a VERSION in 200..220 were present, every attribute was one of the five known ones, and the version is that of the last VERSION attribute.",
  "every processing instruction text",
  "infinitely many inputs",
  ["response.go: readXMLHeaders"])
p("Marshal refuses misplaced or invalid messages",
  "Request.Marshal succeeds iff the signon request is valid, every message sits in the message set it belongs to and is valid for the request's version (and its fields can be encoded); when it fails no bytes are returned. Same for Response.Marshal.",
  "every Request/Response with any number of messages in any slots",
  "unbounded message lists in 14 slots",
  ["request.go: Request.Marshal, encodeMessageSet","response.go: Response.Marshal"])
p("Marshal writes every message once, in the fixed set order",
  "The marshalled document is one OFX element holding the signon message set first, then one element for every non-empty message set in the fixed order, each holding exactly its messages in the order they were appended; empty sets are absent.",
  "every Request/Response",
  "unbounded message lists",
  ["request.go: Request.Marshal, encodeMessageSet","response.go: Response.Marshal"])
p("DecodeResponse files every transaction into its own message set in document order",
  "When decoding succeeds the slice of each message set holds exactly the transactions of all elements with that set's name, in document order, nothing lost or duplicated; an unknown message set or a transaction that does not belong to its set makes decoding fail.",
  "every document",
  "documents are unbounded and sets may be repeated",
  ["response.go: DecodeResponse, decodeMessageSet, responseTypes"])
p("A marshalled response parses back to the same response",
  "For every response that Marshal accepts and whose fields are representable (no surrounding white space in text, dates to the millisecond, amounts of at most 100 decimals, no details of 401(k) loans, see C52), DecodeResponse of the bytes yields the same response, for SGML and XML versions alike.",
  "every response of any size",
  "unbounded values; the sample files only test a few",
  ["response.go: Response.Marshal, DecodeResponse"])
p("Request documents mean the same in every dialect and layout",
  "Reading back the element tree of a marshalled request gives the same tree for XML versions (closed tags) and SGML versions (leaf tags unclosed), indented or not, with or without carriage returns.",
  "every request, dialect and layout setting",
  "unbounded documents",
  ["request.go: Request.Marshal","leaf_elements.go: ofxLeafElements"])
p("Field text cannot inject markup",
  "Whatever bytes a field holds, its encoded form contains no raw '<', '>', '&' or quotes, and if the field is valid UTF-8 made of XML characters the decoder returns exactly the same text.",
  "every byte string",
  "infinitely many strings, security relevant",
  ["request.go: Request.Marshal", "types.go: String"])
p("Leaf elements and containers are disjoint",
  "No element that any message type nests other elements in is listed as an auto-closed leaf, so an SGML document never has a container closed early; conversely every scalar field of the request messages is a listed leaf, apart from the five options OFX 2 added.",
  "every element of every message type",
  "follows the whole schema, hundreds of elements in many files",
  ["leaf_elements.go: ofxLeafElements","bank.go, creditcard.go, invstmt.go, seclist.go, signup.go, profile.go, signon.go: struct tags"])
p("Unclosed SGML leaves decode like closed ones",
  "Dropping any subset of the end tags of leaf elements from a document does not change the tree the SGML decoder produces (up to trailing white space of leaf text).",
  "every document tree and every subset of leaf end tags",
  "exponentially many subsets of unbounded documents",
  ["response.go: DecodeResponse","leaf_elements.go"])
p("Response validation reports every problem and keeps the response",
  "Response.Valid fails iff the signon or at least one message is invalid; the error lists one entry for each invalid part, in order, with nested validation errors flattened; ParseResponse returns the decoded response together with that error.",
  "every response",
  "unbounded message lists",
  ["response.go: Response.Valid, ParseResponse, errInvalid"])
p("Security lists round-trip",
  "Encoding and decoding a security list preserves every security with its kind and order.",
  "every list",
  "unbounded heterogeneous lists",
  ["seclist.go: SecurityList.UnmarshalXML, SecurityList.MarshalXML"])
p("Investment transaction lists round-trip",
  "Encoding and decoding an investment transaction list preserves dates, every transaction with its kind and relative order, and the bank transactions.",
  "every list", "unbounded heterogeneous lists over 20 kinds",
  ["invstmt.go: InvTranList.UnmarshalXML, InvTranList.MarshalXML"])
p("Position lists and open order lists round-trip",
  "Encoding and decoding preserves every element with its kind and order.",
  "every list","unbounded heterogeneous lists",
  ["invstmt.go: PositionList.*, OOList.*"])
p("Message set lists round-trip",
  "Encoding a profile's message set list succeeds iff every name ends in V1, and decoding gives back the same sets in order.",
  "every list","unbounded lists",
  ["profile.go: MessageSetList.*"])
p("Transaction.Valid requires a correction action for corrections",
  "A transaction that corrects another (CorrectFiTID non-empty) is rejected if its CorrectAction is invalid and not rejected merely because CorrectAction is valid.",
  "every transaction","the code is expected to violate it (condition inverted); needs all values",
  ["bank.go: Transaction.Valid"])
p("Statement validity is exactly the documented conjunction",
  "StatementResponse.Valid succeeds iff UID, status, currency, account and date are valid, the available balance is given with its date or not at all, and every listed transaction, pending transaction and balance is valid for the version.",
  "every statement with lists of any length","unbounded lists",
  ["bank.go: StatementResponse.Valid, TransactionList.Valid, PendingTransactionList.Valid, Balance.Valid"])
p("Version-gated features are rejected below their version and validity is monotone above it",
  "IncludePending and pending transaction lists are refused below 220, IncTranImg below 210, ImageData below 220; raising the version never makes a valid statement request or response invalid.",
  "every message and every pair of versions","unbounded messages times versions",
  ["bank.go: StatementRequest.Valid, Transaction.Valid, StatementResponse.Valid"])
p("Currency.Valid rejects exactly zero rates and the XXX currency",
  "A currency is valid iff its rate is not zero and its symbol is valid.",
  "every rational rate","the code is expected to violate it for huge integer rates (low 64 bits zero)",
  ["common.go: Currency.Valid"])
p("No client ever sends a request over anything but https",
  "For every client type, URL and request, if the URL does not start with https:// then no network operation happens and an error is returned.",
  "every URL, body and network behaviour","infinitely many URLs; security relevant",
  ["basic_client.go: RawRequest","vanguard_client.go","discovercard_client.go"])
p("Vanguard retries at most once, with the cookies it was given",
  "VanguardClient.RequestNoParse performs at most two network exchanges; the second happens only if the first returned a response with no known content and at least one cookie, and it carries exactly these cookies and the same document.",
  "every server behaviour and request","needs all server behaviours",
  ["vanguard_client.go: RequestNoParse"])
p("Discover requests are framed correctly",
  "The bytes sent are the request line, the four headers in the fixed order, a blank line and the body, and the Content-Length value is the decimal length of the body.",
  "every path, host and body","unbounded bodies",
  ["discovercard_client.go: discoverCardHTTPPost"])
p("GetClient picks the specialised client exactly for its URL",
  "GetClient returns the Discover or Vanguard client iff the URL with leading and trailing slashes removed equals the known URL, and otherwise the given client itself.",
  "every URL","infinitely many strings",
  ["client.go: GetClient"])
p("Client settings overwrite the request and the defaults are usable",
  "After SetClientFields the request carries the client's version, AppID, AppVer, indent and newline settings and nothing else changed except DtClient; a zero BasicClient yields version 203, OFXGO and 0001, which SignonRequest.Valid accepts.",
  "every client and request","all field combinations",
  ["request.go: SetClientFields","basic_client.go: OfxVersion, ID, Version, IndentRequests"])
p("Client.Request returns either a response or an error",
  "Exactly one of response and error is non-nil, the error case covers marshal, network, status, parse and validation failures, and on success the response is the decoded and valid server document.",
  "every request and server behaviour","needs all server behaviours",
  ["client.go: clientRequest, clientRequestNoParse"])
p("Profile requests always ask for routing NONE",
  "Whatever ClientRouting the caller set, a marshalled profile request carries CLIENTROUTING NONE.",
  "every profile request","infinitely many values",
  ["profile.go: ProfileRequest.Valid"])
p("detect-settings tries every combination once, best first, and stops at the first success",
  "The sequence of attempts is a prefix of the fixed enumeration of all 594 combinations without repetition; it stops at the first combination the server accepts and reports that one, and covers all if none is accepted.",
  "every server behaviour","needs all server behaviours",
  ["cmd/ofx/detect_settings.go: detectSettings, tryProfile"])
p("Dry runs never touch the network",
  "With -dryrun set no sub-command performs a network operation.",
  "every flag setting and server behaviour","all flag combinations",
  ["cmd/ofx/*.go","cmd/ofx/util.go: printRequest"])
p("The command line tool prints any valid statement without crashing",
  "For every response ParseResponse accepts, printing bank, credit card and investment transactions does not dereference nil.",
  "every response","the code is expected to violate it (absent transaction lists, payees)",
  ["cmd/ofx/banktransactions.go, cctransactions.go, invtransactions.go"])
p("Marshal with an invalid version is an error",
  "Marshalling with a version that is not a valid OFX version returns an error instead of a document without header.",
  "every uint version","the code is expected to violate it (writeHeader's error is ignored)",
  ["common.go: writeHeader","request.go: Request.Marshal","response.go: Response.Marshal"])
p("Details of 401(k) loans are refused, not misread",
  "A response that has LOANINFO inside INV401K is rejected by DecodeResponse, and Marshal writes loans under another name, so they are lost.",
  "every document","the code violates the expected round trip (LoanInfo's XMLName is VESTINFO); rejection must hold wherever LOANINFO occurs",
  ["invstmt.go: LoanInfo, Inv401K"])
p("Kind and common part of list items",
  "The TransactionType, SecurityType, PositionType and OrderType of an item equal the name of the element it is read from and written under, and InvTransaction, SecurityInfo and InvPosition return what is written in its INVTRAN, SECINFO and INVPOS element.",
  "every item of every kind","infinitely many items, many kinds",
  ["invstmt.go: TransactionType, InvTransaction, PositionType, InvPosition, OrderType","seclist.go: SecurityType, SecurityInfo"])
p("Marshalling is repeatable",
  "Marshalling a request may fill in its language and profile routing, but marshalling it again gives the same document.",
  "every request","all requests; Marshal changes its receiver",
  ["request.go: Marshal","signon.go: SignonRequest.Valid","profile.go: ProfileRequest.Valid"])
p("The dialect of an answer is decided by its first kilobyte",
  "DecodeResponse reads a document as SGML exactly if its first 1024 bytes contain OFXHEADER: with no OFXHEADER= before it, and what comes after these bytes does not matter.",
  "every byte string","infinitely many documents, markers at any offset",
  ["response.go: guessVersion"])
p("What a client sends is the request's document in the client's version",
  "Every body a client sends, in the first request, after redirections that keep the body and in the Vanguard retry, is one document: its header is that of the client's OFX version and its content is read as the request with the client's settings.",
  "every client, request, server behaviour","all client settings and requests, all answers of the server",
  ["client.go: clientRequestNoParse","basic_client.go","vanguard_client.go","discovercard_client.go"])
p("A dry run prints exactly what a real run sends",
  "For the same arguments, random bytes, time and password, what a sub-command prints with -dryrun, but for a newline at the end, is byte for byte every non-empty body it sends without -dryrun.",
  "every command line and server behaviour","needs pairs of runs with all arguments and answers",
  ["cmd/ofx/util.go: printRequest","cmd/ofx/*.go"])
p("Downloads save the answer's body and report failures",
  "A download command exits with status 0 after contacting a server only if the last answer had status 200 and its whole body, and nothing else, was written to the file named by -filename; without such an answer no file is created.",
  "every command line, server behaviour and failure of the file system","all answers and failures",
  ["cmd/ofx/bankdownload.go, ccdownload.go, invdownload.go, profiledownload.go"])
p("The exit status of the commands that print is meaningful",
  "get-accounts and the transactions commands exit with 0 after a valid response that accepts the login, unless they crash, and with 1 if they contacted a server and got no such response; with 0 in no other case but dry runs and help.",
  "every command line and server behaviour","all answers of the server",
  ["cmd/ofx/get_accounts.go, banktransactions.go, cctransactions.go, invtransactions.go"])
p("transactions-bank and transactions-cc show every transaction",
  "After a valid response the output is the balance and its currency and date, and one line for each transaction of the first statement, in order, with its date, amount, currency, type, name and memo.",
  "every response","statements of any length",
  ["cmd/ofx/banktransactions.go: bankTransactions, printTransaction","cmd/ofx/cctransactions.go: ccTransactions"])
p("transactions-inv shows the cash balance and every transaction",
  "After a valid response the output has the cash balance, the transactions of the cash accounts and one line for each investment transaction, in order, with its kind, its date and, separated from them, its contents, and nothing else.",
  "every response","the code is expected to violate it for balances with a fraction; statements of any length, all kinds",
  ["cmd/ofx/invtransactions.go"])
p("The request sent is the one the flags describe",
  "Whatever one run of a sub-command sends is one document: the request of that command with the accounts, credentials and institution of its flags, made by the client with the application, OFX version and formatting of its flags, and with a fresh random UID.",
  "every command line and server behaviour","all combinations and orders of flags",
  ["cmd/ofx/command.go","cmd/ofx/util.go: newRequest","cmd/ofx/*.go"])
p("get-accounts lists every account",
  "After a valid response the output has one entry for each account of the response, in order, with the numbers a user needs for the other commands, and nothing else; without accounts it says so.",
  "every response","lists of any length, all kinds of accounts",
  ["cmd/ofx/get_accounts.go"])
p("A truncated document is refused and nothing after a document matters",
  "No proper prefix of a document the library writes is read as a response (or, for requests, as a complete document), and once the bytes read so far are a complete response, whoever wrote them, further bytes change neither the response nor the error.",
  "every response, request and cut; every byte string and continuation","needs every document cut at every byte",
  ["response.go: DecodeResponse, ParseResponse","request.go: Marshal","response.go: Marshal"])
p("Every decoded field is well formed and valid responses can be written again",
  "Whatever bytes a server sends, the fields of a response DecodeResponse returns are well formed (text without surrounding white space that XML can carry, numbers in lowest terms, known currencies, named enumeration values or none), its version is an OFX version and each message is in its message set; and a valid response that was read can be marshalled and is read again as the same response if its amounts and dates have an exact text form.",
  "every byte string","infinitely many documents, most of them not written by the library",
  ["response.go: DecodeResponse, ParseResponse, Marshal","types.go: UnmarshalXML methods","constants.go"])
p("Unknown elements and the order of fields do not matter, except in lists",
  "Adding or removing elements the library does not know and exchanging differently named elements, at any depth outside of the document, message set and list elements read by hand-written code, does not change what a document is read as; in the lists of an investment statement unknown elements make DecodeResponse fail instead of being skipped.",
  "every document, every number and place of changes","infinitely many documents and combinations of changes",
  ["response.go: DecodeResponse","invstmt.go: InvTranList, PositionList, OpenOrderList UnmarshalXML","xml struct tags"])
p("A date that was read is written as the same instant",
  "Marshalling a date the library has read and reading the result gives the same instant.",
  "every date","the code violates it for zones that are not multiples of three minutes (the hours are written with two decimals, rounded towards zero); all offsets and times",
  ["types.go: Date.String, Date.UnmarshalXML"])
p("An XML document is accepted exactly if it follows the grammar",
  "A document that does not look like SGML is read exactly if it is an XML declaration, an OFX processing instruction with a good header and an OFX element, written as a stated grammar over bytes allows (matching tags, attributes, references, CDATA sections, comments, processing instructions, directives), and the tree is the one the grammar gives; so two documents that spell the same tree differently are read as the same response.",
  "every byte string","infinitely many documents, well-formed and not",
  ["response.go: DecodeResponse, readXMLHeaders","util.go: nextNonWhitespaceToken","github.com/aclindsa/xml Decoder as used by /repo"])
p("Marshalled documents are laid out as the settings say",
  "A marshalled request is its header, line by line, and the OFX element; with Indent every element starts a new line with four blanks for each level and otherwise the element is on one line; with CarriageReturn every line feed comes with a carriage return and without it there is no carriage return, whatever text the fields hold. Responses are always indented, with line feeds.",
  "every request and response, every setting","all trees of any depth and all texts",
  ["request.go: Marshal, SetClientFields","response.go: Marshal","basic_client.go: IndentRequests, CarriageReturnNewLines"])
p("A document whose tags do not match is refused",
  "DecodeResponse fails on a document in which an end tag matches no start tag.",
  "every document","the code violates it for SGML, where such a tag silently ends the document; infinitely many documents",
  ["response.go: DecodeResponse"])
p("Every message is valid exactly if it meets the stated rules",
  "For each of the thirteen messages and every OFX version, Valid accepts the message exactly if it meets the rules stated for it (identifiers, accounts, statuses, version gates), and it changes nothing but the routing of a valid profile request; likewise for sign-on responses.",
  "every message and version","all combinations of fields, lists of any length",
  ["bank.go, creditcard.go, invstmt.go, seclist.go, signup.go, signon.go, profile.go: Valid methods","common.go: Status.Valid"])
p("Marshal returns exactly the stated bytes",
  "Request.Marshal succeeds exactly if the sign-on is valid and every message is valid and in its own message set, and then returns exactly one string of bytes: the header of the version and the OFX element with, for each message, the elements listed for it, with these names, in this order, holding these texts. Likewise Response.Marshal.",
  "every request and response","all combinations of optional fields, lists of any length; a single misspelt tag or swapped field is enough to break it",
  ["request.go: Marshal, marshalMessageSet","response.go: Marshal","xml struct tags of all files","types.go: MarshalXML methods","constants.go"])
p("An SGML document is accepted exactly if it follows the grammar",
  "A document that looks like SGML is read exactly if it is a good header and an OFX element written as a stated grammar over bytes allows (end tags of simple elements left out, end tags that end several elements, stray ampersands, attributes without quotes or values), and the tree is the one the grammar gives; the grammar leaves no choice, and well-formed XML has the same tree as in an XML document.",
  "every byte string","infinitely many documents, well-formed and not",
  ["response.go: DecodeResponse, readSGMLHeaders, guessVersion","leaf_elements.go","github.com/aclindsa/xml Decoder with Strict off and AutoClose, as used by /repo"])
p("Every field of a response is what its element says",
  "ParseResponse accepts a document exactly if it follows the grammar of its dialect and every element says a value for its field (names of elements, their nesting, the kind of value, which fields are optional or lists, what a missing or repeated element means, stated field by field for every kind of message), and then every field of the response is that value; nothing is invented, moved to another field, message or set, reordered or dropped.",
  "every byte string","infinitely many documents; a single misspelt tag or exchanged field is enough to break it",
  ["response.go: DecodeResponse, ParseResponse, decodeMessageSet","xml struct tags of all files","types.go, constants.go: UnmarshalXML methods","invstmt.go, seclist.go, profile.go: UnmarshalXML methods"])
p("A request can be recovered from the bytes that are sent",
  "Whoever reads the bytes Request.Marshal returned, whatever follows them, finds the version, the sign-on and every field of every message of the request in them, each in its own element, set and order; so two requests that differ in anything are sent as different bytes, and none is sent as the beginning of another. The dates are found to the millisecond, whatever the nanoseconds of the clock; a field that is not exact is found as it is read from its own text.",
  "every request","all combinations of optional fields, texts and lists of any length; infinitely many pairs of requests",
  ["request.go: Marshal","xml struct tags of all files","types.go, constants.go: MarshalXML methods"])
p("The password goes nowhere but into the request to the server",
  "Whether a request can be marshalled and all its bytes but those of the password itself, the hosts, headers, cookies and number of messages a client sends, what a client returns, and what the command line tool prints, saves and exits with (unless -dryrun is given) are the same for any two passwords of 1 to 32 bytes, if the network answers the same.",
  "every request, client, pair of passwords, command line and behaviour of network and user","it is about pairs of runs: a test sees one run at a time and cannot tell what a byte depends on",
  ["signon.go: SignonRequest","request.go: Marshal","client.go, basic_client.go, vanguard_client.go, discovercard_client.go","cmd/ofx/*.go"])
p("Decoding does not depend on how the reader hands out the bytes",
  "DecodeResponse and ParseResponse give the same result for every reader that delivers the same bytes: in pieces of any size, with empty reads in between, with the end of the file announced together with the last bytes or after them. The buffered reader never panics on the way and its loops end, also for a reader that stops delivering without an error.",
  "every sequence of bytes and every reader that delivers it","there are infinitely many ways to cut an answer into pieces, and the network chooses; a header split over two reads is one of them",
  ["response.go: DecodeResponse, ParseResponse, guessVersion, readSGMLHeaders"])
p("Client.Request returns what the server computed from the request",
  "If a server reads the document it is sent, computes any function of the sign-on and the messages it says, and answers with Response.Marshal of the result, then Client.Request returns exactly that function of the request it was given (with the client's settings filled in) and no error, for every client; and every body a client sends is the marshalled request or empty. If dates have nanoseconds, the server computes its function of the request to the millisecond.",
  "every client, request, server function and history","a conversation goes through two encoders and two decoders; it is about every function a server may compute and every request",
  ["client.go: clientRequest, clientRequestNoParse","basic_client.go, vanguard_client.go, discovercard_client.go","request.go: Marshal","response.go: Marshal, ParseResponse"])
p('A failed Marshal reports the first problem and spoils nothing',
  "Request.Marshal and Response.Marshal return an error exactly if something is wrong with the sign-on or with one of the messages, that is, if it is filed in a message set it does not belong to, if its Valid method has something to say, or if it is a profile with a message set name that cannot be written. The error is then the first of these problems in the order of the document, with its own text. Whether or not it fails, Marshal leaves the request as it was but that the language of the sign-on and the routing of the profile requests before the first problem may have been filled in; calling it again has the same outcome and changes nothing more. A client whose request cannot be marshalled sends nothing and returns this error.",
  'all requests and responses, valid or not, all clients and histories',
  'Tests try a few invalid requests and look at whether there is an error. Which of several errors is reported, and what has been changed in the caller\'s request when it is, depends on every combination of messages.',
  ['request.go: Request.Marshal, encodeMessageSet', 'response.go: Response.Marshal', 'signon.go: SignonRequest.Valid', 'profile.go: ProfileRequest.Valid, MessageSetList.MarshalXML', 'client.go: clientRequest'])
p('Documents are decoded in one pass, and nothing behind the document is read',
  "DecodeResponse takes tokens from the decoder one by one and lets every type take its own element. For all input the response is the one that the finished element tree denotes, and there is an error in the same cases. Every type, also those with a hand-written UnmarshalXML method, takes exactly one element: the decoder is then where Skip would have left it. What follows the OFX element is not consumed and does not matter, so a caller can read on from there; where SGML leaves out the end tag, the next token has been looked at but not consumed.",
  'all input, all types of the package and all states of the decoder',
  'A method that reads one token too many or too few shows only for inputs in which the next element matters; nesting and length are unbounded.',
  ['response.go: DecodeResponse, decodeMessageSet', 'invstmt.go: InvTranList, PositionList, OOList UnmarshalXML', 'seclist.go: SecurityList.UnmarshalXML', 'profile.go: MessageSetList.UnmarshalXML', 'util.go: nextNonWhitespaceToken'])
p('Exactly which texts are dates, and what they mean',
  "Decoding a date looks at the text before the first closing bracket, without surrounding white space. It succeeds iff that is a day, optionally with an hour (one or two digits), a minute, a second and a fraction of any length after a point or a comma, of a civil time that exists, optionally followed by spaces, an opening bracket and a zone of at most 24 hours; and the result is the instant of that civil time to the nanosecond in that zone. Nothing else is accepted. Written and read again such a date changes only below the millisecond.",
  'all byte strings and all local time zones',
  'The set of accepted texts is infinite and comes from trying five layouts one after another; which of them takes a given text, and what is silently ignored, depends on every character.',
  ['types.go: Date.UnmarshalXML, ofxDateFormats, ofxDateZoneRegex, Date.String'])
p('Exactly which texts are amounts, and what they mean',
  "Decoding an amount ignores surrounding white space, reads the first comma as a point and then succeeds iff the text is an optionally signed number: decimal, or with the prefix 0b, 0o or 0x, with single underscores between digits, a radix point and an exponent of ten or two; or a fraction of two whole numbers, where a leading zero means octal. The result is exactly the number denoted, in lowest terms; nothing else is accepted, except that nonzero numbers with more than a million fives or ten million twos are refused.",
  'all byte strings',
  'The set of accepted texts is infinite; the rules for bases, underscores, points and exponents interact, and the value must be exact for numbers of any length.',
  ['types.go: Amount.UnmarshalXML'])
p('Dates made from fields are the instants the fields say',
  "NewDate(year, month, day, hour, min, sec, nsec, loc) is an instant at which the clocks of loc show these fields, whenever there is one, with the zone in use then; fields outside their range run over into the next larger ones. For a time that the clocks skip, an offset in use nearby is applied. The date is written with the very fields it was made of, and a date of NewDateGMT with whole milliseconds is read back as the same date.",
  'all field values (with a year from 0 on), all locations whose offsets last longer than twice the largest offset',
  'Field values are unbounded and overflow into each other, leap years and changes of the offset interact with them, and locations are arbitrary tables.',
  ['types.go: NewDate, NewDateGMT, Date.String, Date.UnmarshalXML'])
p('Command lines mean one thing',
  "For every sub-command and every list of arguments the tool reads the line in one way. Flags are written -flag=x, -flag x or, for switches, -flag, with one or two dashes, up to the first argument that is no flag. A line with an unknown flag, a value the flag does not take, a missing value or dashes without a name is refused: status 2, nothing printed to standard output, nothing sent, no file touched. Asking for help ends with status 0. For an accepted line only the last value of each flag counts, whatever the order and the way of writing, and a flag that is missing counts as its default. Without a valid sub-command the sub-commands are listed, and the status is 1 unless that was asked for.",
  'all sub-commands and argument lists (any bytes, any length), all machines and servers',
  'Argument lists are unbounded, and flags, values and switches can be mixed and repeated in any order.',
  ['cmd/ofx/main.go: main, runCmd, usage', 'cmd/ofx/command.go: defineServerFlags', 'cmd/ofx/detect_settings.go: init', 'cmd/ofx/bankdownload.go: init'])
p('detect-settings waits as long as it is told',
  "Between two attempts detect-settings waits for exactly the number of milliseconds given by the last -delay, in any notation that Go reads as an unsigned number, or 500; no other sub-command ever waits. False for delays above 9223372036854 ms (292 years), for which the wait wraps around and can be skipped altogether.",
  'all argument lists, machines, servers and runs',
  'Delays range over all 64-bit numbers in every notation, and runs over all behaviours of the server.',
  ['cmd/ofx/detect_settings.go: detectSettings, init'])
p('A command that fails says why',
  "When a sub-command with an accepted command line ends with status 1 it has printed, after the prompt for the password if there was one, exactly one message, and the message is true: every mandatory flag without a value together with the usage line, an OFX version or account type that does not exist, a transaction id that could not be made, a request without an answer of status 200 or, for the commands that read the answer, without a valid response, a file that could not be created or written, or the status, its meaning and the message of a server that refuses the login. The one exception is transactions-inv, which prints nothing if it gets no valid response. No run ends with a status other than 0, 1 and 2, and 2 only after a panic or a refused command line. A dry run prints the request, or why it cannot be made, with status 0 either way.",
  'all sub-commands, argument lists, machines, servers, file systems and runs',
  'Failures can come from every flag, every step and every answer, alone and combined.',
  ['cmd/ofx/command.go: checkServerFlags', 'cmd/ofx/bankdownload.go: download, downloadCheckFlags', 'cmd/ofx/ccdownload.go: ccDownload', 'cmd/ofx/invdownload.go: invDownload', 'cmd/ofx/profiledownload.go: downloadProfile, downloadProfileCheckFlags', 'cmd/ofx/get_accounts.go: getAccounts', 'cmd/ofx/banktransactions.go: bankTransactions', 'cmd/ofx/cctransactions.go: ccTransactions', 'cmd/ofx/invtransactions.go: invTransactions', 'cmd/ofx/util.go: newRequest, printRequest', 'cmd/ofx/main.go: main, runCmd'])
p('Requests go to the server and path their URL names',
  "A request can be sent to exactly the https URLs of the grammar of RFC 3986 as net/url relaxes it: optional user, a name or a bracketed address with optional zone and port, path, query and fragment, with correct percent-encoding and without control characters. For any other URL nothing is sent and an error is returned. A URL names one server and one path; the Discover client connects to that server, at its port or else at 443, and its request line and Host header carry that path and that name without port and brackets. All URLs of ordinary names and paths are among them.",
  'all URLs, clients, bodies and histories of the network',
  'URLs are arbitrary texts; accepting and splitting them wrongly shows only for particular combinations of parts.',
  ['basic_client.go: BasicClient.RawRequest', 'vanguard_client.go: VanguardClient.RawRequest, rawRequestCookiesInsecureCiphers', 'discovercard_client.go: discoverCardHTTPPost, DiscoverCardClient.RawRequest'])
p('HTTP requests, redirections and results are exactly these',
  "Every history of RawRequest and RequestNoParse over net/http is one of the described ones, and each described one can happen: the first request is a POST of the body with exactly the Content-Type, the Accept header of the basic client and the User-Agent if one is set; answers 301, 302 and 303 are followed by a GET without body, 307 and 308 by the same method and body if the body can be read again, until an answer, an error, a verdict of CheckRedirect or the limit of the http.Client (ten by default) ends it; an answer of status 200 is returned without error, any other with the error that names its status, a failure with an error. The Vanguard client sends the same bytes once more, with the cookies it got and without the User-Agent, exactly if the answer had no content and set cookies, whatever its status.",
  'all clients, http.Clients, URLs, bodies, answers and chains of redirections of any length',
  'Chains of answers are unbounded and adversarial; tests use one or two fixed answers.',
  ['basic_client.go: BasicClient.RawRequest', 'vanguard_client.go: VanguardClient.RawRequest, rawRequestCookiesInsecureCiphers, VanguardClient.RequestNoParse', 'client.go: clientRequestNoParse', 'discovercard_client.go: DiscoverCardClient.RawRequest'])
p('Goroutines may share a client',
  "Any number of goroutines may call Request or RequestNoParse at the same time with the same client or different ones, if each uses a request of its own: under every schedule each of them sends and returns what it could have sent and returned alone, its request is left as if it had been alone, and no other request changes. With a request that is used twice at the same time this is not so: the bytes that are sent may be the document of no request and no client.",
  'all numbers of goroutines, clients, requests, network behaviours and interleavings of their accesses to the requests',
  'Interleavings are unbounded; a test sees the schedule it happens to get.',
  ['client.go: clientRequestNoParse', 'request.go: Request.SetClientFields, Request.Marshal', 'vanguard_client.go: VanguardClient.RequestNoParse', 'signon.go: SignonRequest.Valid', 'basic_client.go: BasicClient'])
p('The files of an interrupted command',
  "Wherever a command of the tool is stopped, by a crash, a signal, an error or its end, the files are as they were before, or it is a download whose last answer had status 200 and the only file that differs is its output file, which has some beginning of the body of that answer. A download that contacted a server and ends with status 0 leaves the whole body there. What the output file had before is lost even if the download then fails.",
  'all command lines, answers of servers, outcomes of file operations, crash points and files that were there before',
  'Crash points cannot be enumerated by tests, and partial writes are hard to provoke.',
  ['cmd/ofx/bankdownload.go: download', 'cmd/ofx/ccdownload.go: ccDownload', 'cmd/ofx/invdownload.go: invDownload', 'cmd/ofx/profiledownload.go: downloadProfile', 'cmd/ofx/main.go: main'])
p('The library does not panic on any input',
  "Reading a date or a header, looking at a UID or a status, making a random UID and checking a response return for every text and every value: no index is out of range, no slice has bounds that are not there and no nil pointer is dereferenced, whatever an institution sends and whatever optional parts are missing.",
  'all texts, headers, UIDs, random bytes, statuses and responses, with any optional parts nil',
  'A panic needs one unforeseen input among infinitely many; fuzzing samples them.',
  ['types.go: Date.UnmarshalXML, UID.RecommendedFormat, RandomUID', 'common.go: Status.Valid, Status.CodeMeaning, Status.CodeConditions', 'bank.go: Transaction.Valid, TransactionList.Valid, StatementResponse.Valid', 'response.go: Response.readSGMLHeaders, Response.readXMLHeaders, Response.Valid', 'signon.go: SignonResponse.Valid'])
p('Every body of an answer is closed or handed to the caller',
  "Each answer an institution sends has a body that keeps a connection until it is closed. After Request returns, every body it received is closed; RequestNoParse and RawRequest return the response whose body is still open, so that the caller can close it, and never one whose body is closed already.",
  'all requests, clients, conversations with a server, answers and outcomes',
  'It is about every path through the clients, including failures after an answer arrived; a leaked connection has no visible effect in a test.',
  ['client.go: clientRequest, clientRequestNoParse', 'basic_client.go: BasicClient.RawRequest', 'vanguard_client.go: VanguardClient.RequestNoParse, rawRequestCookiesInsecureCiphers', 'discovercard_client.go: DiscoverCardClient.RawRequest'])
p('A validation error names the first rule that is broken',
  "Every Valid method looks at its rules in a fixed order: its error is the text of the first rule the value breaks, and there is no error if it breaks none. Response.Valid reports one such text for the sign-on and for each message that breaks a rule, and nothing else.",
  'all messages, sign-ons, statuses, accounts, currencies, payees, transactions, balances, versions and responses',
  'It relates every combination of broken rules to one text; tests try single ones.',
  ['common.go: Status.Valid, BankAcct.Valid, CCAcct.Valid, Currency.Valid', 'bank.go: StatementRequest.Valid, Payee.Valid, Transaction.Valid, TransactionList.Valid, PendingTransaction.Valid, Balance.Valid, StatementResponse.Valid', 'signon.go: SignonRequest.Valid, SignonResponse.Valid', 'response.go: Response.Valid'])
p('A response is no larger than the document it was read from',
  "If a document is decoded, the response has no more structs behind pointers, elements of slices and bytes of strings, all counted together, than the document has bytes. An amount is a fraction whose parts have at most four bits for each byte of its text and thirteen million bits more.",
  'all byte strings and all responses read from them; all texts of amounts',
  'Documents made to exhaust memory are of any size and shape: nested, repeated, with references.',
  ['response.go: DecodeResponse, ParseResponse, decodeMessageSet', 'types.go: Amount.UnmarshalXML, String.UnmarshalXML, UID.UnmarshalXML', 'invstmt.go: InvTranList.UnmarshalXML, PositionList.UnmarshalXML, OOList.UnmarshalXML', 'profile.go: MessageSetList.UnmarshalXML', 'seclist.go: SecurityList.UnmarshalXML'])
p('The tool sends its request exactly if its flags are right',
  "A command of the tool other than detect-settings, with a command line that it accepts and without -dryrun, contacts a server if and only if: the URL is an https URL that names a server; the user name has 1 to 32 bytes and the password at most 32, or the command is download-profile without a user name; the OFX version is known; the application id has at most 5 and its version at most 4 bytes; the file name of a download is not empty; for bank accounts, the bank id and account id are given and the account type is known; a password that has to be typed is typed and has 1 to 32 bytes; and the random number generator works. detect-settings contacts the server if and only if the URL names one, there is a user name, a password that has to be typed is typed, and its first random number is there.",
  'all commands, command lines, passwords typed, random numbers and answers of servers',
  'Safety tests show that nothing is sent for some wrong flags; that every right combination of flags leads to a request takes all combinations.',
  ['cmd/ofx/command.go: checkServerFlags', 'cmd/ofx/util.go: newRequest', 'cmd/ofx/detect_settings.go: tryProfile', 'cmd/ofx/bankdownload.go, banktransactions.go, ccdownload.go, cctransactions.go, invdownload.go, invtransactions.go, profiledownload.go, get_accounts.go', 'signon.go: SignonRequest.Valid', 'bank.go: StatementRequest.Valid', 'basic_client.go: RawRequest'])
p('What is read does not depend on the time zone of the machine',
  "Two machines that know the same currency codes but are in different time zones read the same response from the same bytes: the same messages with the same fields, every date the same instant with the same offset, and the same error or none from ParseResponse. Only the name of the zone of a date may differ, and only if it is the name that the zone of one of the machines has at that instant, with the offset of the date.",
  'all byte strings and all pairs of time zones, whose names and offsets may change with time in any way',
  'A test runs in one time zone; the zone of the machine is an input of every date that is read, in every field of every message.',
  ['types.go: Date.UnmarshalXML, Date.String', 'response.go: ParseResponse, DecodeResponse, Response.Valid', 'bank.go: StatementResponse.Valid'])
p('Exactly which written dates can be read again',
  "The text that the library writes for a date (any nanosecond of the years 0 to 9999, any offset less than 25 hours) is accepted when it is read exactly if the zone of the date has no name, or a name of three capital letters, or one of four or five letters of the forms that the Go time package knows. A date that was read has such a name or that of the zone of the machine; so it can be written and read again, on any machine, if the zone of the machine that writes it has such names.",
  'all dates, offsets and names of zones made of letters, digits and signs; all texts that are read as dates; all time zones of the machine',
  'Tests use a few zones with names such as EST; the names of zones depend on the machine and on the instant.',
  ['types.go: Date.String, Date.UnmarshalXML'])
p('Writing and reading again settles',
  "A date that was read and is then written and read again and again changes at most twice and is the same from then on, on every machine whose zone has names that can be read. What it settles at has the clock of the date that was read, to the millisecond, and an offset of at most two minutes less, or the offset without its sign (C10). An amount changes at most once. A response that was read is the same after two rounds, as long as the responses in between are valid.",
  'all texts that are read as dates; all amounts; all time zones of the machine with readable names; any number of rounds, by the fixed point',
  'Repeated rounds from every text are an infinite family; tests make one round from a few texts.',
  ['types.go: Date.String, Date.UnmarshalXML, Amount.String, Amount.UnmarshalXML'])
p('A response that is written and read again is the same field for field',
  "What DecodeResponse makes of the bytes that Marshal wrote for a response is that response with each field replaced by what is read from the text of that field, and nothing else changed: no field, list item, message or set is lost, added or moved, whatever the values of the fields, if each of them can be read from its own text. In particular a valid response that was read can be written, and is read again as the same response up to its dates and amounts, if the zone of the machine has names that can be read.",
  'all responses of every version with fields that can be read from their own text (C27 asks for exact fields), with no details of 401(k) loans (C52) and text that XML can carry; all valid responses that were read; anything after the document',
  'Tests compare whole responses for a few samples whose dates and amounts happen to be exact.',
  ['response.go: Response.Marshal, DecodeResponse, ParseResponse', 'types.go: Date, Amount'])
p('What the information on an account prints says all of it',
  "String of the information on a bank account, a credit card account or an investment account, as listed by a financial institution, shows every field with its name and value, and is the same for two pieces of information only if they are equal in every field, if the account numbers and keys have no spaces, the dates can be read from their texts and the amounts have at most 100 decimals. Without the condition on spaces two different accounts can print the same.",
  'all pieces of information on accounts, with any XML names, any enumeration values (valid or not), dates and amounts',
  'A test compares one printed text; whether some other account prints the same is a question about all pairs.',
  ['signup.go: BankAcctInfo.String, CCAcctInfo.String, InvAcctInfo.String', 'common.go: BankAcct, CCAcct, InvAcct'])
open('/verif/properties.jsonl','w').write(''.join(json.dumps(x)+'\n' for x in P))
print(len(P))
