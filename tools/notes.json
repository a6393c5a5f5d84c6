{
 "C44": {
  "note": "Full round-trip for legal headers; the _refuted theorem shows a control header without FIN is written but refused on reading, so FIN is a hypothesis."
 },
 "C46": {
  "note": "inner_put_slice of the external buffer crate is assumed to copy its argument to the endpoint."
 },
 "C52": {
  "status": "partial",
  "note": "Non-empty, continuation opcodes and reserved bits proved; the code does not check FIN flags or fragmented control messages, shown by the two _refuted theorems."
 },
 "C01": {
  "note": "Round-trip for every map whose names are tokens, whose values have no CR or leading space, and whose names are distinct for the crate's comparison (all reachable maps are distinct). The _refuted theorems show the value and name conditions are needed."
 },
 "C03": {
  "status": "partial",
  "note": "Round-trip proved for requests whose target is a plain path; the query is never written, a '%' in the path is decoded twice and CONNECT does not round-trip, each shown by a _refuted theorem. C03_exact: a request is delivered unchanged if and only if those conditions hold."
 },
 "C08": {
  "status": "partial",
  "note": "Refuted in general by two witnesses. The hopeless inputs are characterised exactly for requests, responses and header blocks; for every other Partial input a continuation with a definite answer is given."
 },
 "C09": {
  "status": "partial",
  "note": "Round-trip proved for status codes with a canonical reason; other codes cannot be serialised and an empty reason phrase is rejected (_refuted). C09_exact: if and only if."
 },
 "C13": {
  "status": "partial",
  "note": "Exactness, stability and prefix claims are full. Never panicking is false for sizes of at least 2^64 - 2 (_refuted, and characterised by C13_large_sizes_panic and C13_total_partial)."
 },
 "C58": {
  "note": "Accepted texts, results and panics are characterised exactly."
 },
 "C60": {
  "note": "The flag after each call is characterised; the _refuted theorem shows it can disagree with the returned Partial error."
 },
 "C14": {
  "note": "Full refinement for every history over names on which the comparison is case-insensitive equality, as the property states; C14_clash_free_names gives a character-level criterion and the usual names meet it."
 },
 "C15": {
  "status": "partial",
  "note": "Case is always ignored; the converse and transitivity are false for non-letters 32 apart (_refuted). Proved for all clash-free pairs, letters-only names and lower-case names; C15_comparison_exact says what the comparison is."
 },
 "C16": {
  "status": "partial",
  "note": "False in general (_refuted); proved for clash-free pairs. Exact: names that compare equal hash alike exactly when they are clash-free."
 },
 "C17": {
  "status": "partial",
  "note": "Numerals below 2^63 give their value. Values with '-' and other names that clash with content-length are accepted and 2^63 panics (_refuted); results and panics are characterised exactly. Overflow is modelled as in builds with overflow checks."
 },
 "C18": {
  "status": "partial",
  "note": "Full for usize and for values made from literals; isize::MIN panics when read back from a built value (_refuted), every other isize round-trips."
 },
 "C22": {
  "status": "partial",
  "note": "Proved for every URL whose components are legal where they are written (scheme, host and port present; user and password both or neither), and for origin-form targets. Refuted beyond: Display does not escape '?' and '@' in a path, '@' in a query or ':' in a password. C22_exact: no other URL round-trips."
 },
 "C23": {
  "status": "partial",
  "note": "Total for all bytes; success implies a 16-bit port and UTF-8 components. The exact accepted language and its meaning are proved for all texts (url_means). The path starts with '/' when no '@' follows the authority; refuted otherwise: http://a/b@? has an empty path, http://h/a?to=x@y has no host, and only the last of several logins is looked at."
 },
 "C24": {
  "status": "proved",
  "note": "Hosts without percent escapes; the defaults are a separate table, unknown schemes get port 0."
 },
 "C56": {
  "status": "partial",
  "note": "Every header list with a Host field, provided no field is named zscheme; refuted with Zscheme and Zauthority, which compare equal to :scheme and :authority. C56_exact: the URL is the right one if and only if every field named Z and scheme keeps the scheme http."
 },
 "C61": {
  "status": "partial",
  "note": "All codes but 103 and 425 (no phrase) and 203 (\"Non Authoritative Information\" without the hyphen). Exact: the phrases are the registered ones if and only if the code is none of the three."
 },
 "C27": {
  "status": "partial",
  "note": "The accepted strings are exactly the codes of symbols 0..256 with at most seven one bits of padding; re-encoding gives the input back when the decoded text has no octet 0. Refuted in general: the EOS symbol is accepted and read as octet 0."
 },
 "C31": {
  "status": "partial",
  "note": "Holds for names the library's comparison does not confuse in every history where each field, when sent, is new, has a static name or is among the newest 65 entries of the sender's table (C31_sync_near_partial; no other bound), and this is exact for the last field of a block (C31_near_exact). Special cases: fields of size >= k and maxima < 66k; at most 66 fields; at most 65 different fields that are static entries or have names outside the static table. The sender's table is characterised after every history. Refuted with 66 entries (index 127 needs two octets, one is read), by one block of two HTTP/2 fields sent 66 times, and for x-1 / x-Q. C31_exact: all beginnings of a history arrive if and only if every field is near when it is sent."
 },
 "C32": {
  "status": "partial",
  "note": "Never panics; exact characterisation of non-termination: a size-update octet at a field boundary makes the loop spin for ever (refuted by the single octet 0x20)."
 },
 "C33": {
  "status": "partial",
  "note": "All entries but 15, which is accept- instead of accept-charset. Search soundness and static encoding in full. Exact: the entry is the registered one if and only if it is not 15."
 },
 "C62": {
  "status": "partial",
  "note": "Blocks without size updates, whole-field indices below 127, index 15 unused; refuted for index 15 and index 127. C62_exact goes further: for every octet string it states which blocks the decoder accepts and what it reports for each, and C62_lossy does so for the text decoding."
 },
 "C63": {
  "status": "partial",
  "note": "Names without clashes and other than accept-; refuted for accept-, sent as index 15. C63_exact: the block means the fields if and only if none has that name and what the table search finds for each has its name."
 },
 "C35": {
  "status": "proved",
  "note": "Round trip for every legal settings value and for ACK. The ACK-with-settings frame that the setters allow is refused by the receiver (refuted variant)."
 },
 "C38": {
  "status": "partial",
  "note": "For every positive maximum frame size and every flag set without PADDED; a zero maximum diverges, and a frame with the PADDED flag, which encode writes without padding, is refuted. Exact: data that is not empty arrives complete if and only if PADDED is not set; what arrives of padded pieces is stated."
 },
 "C39": {
  "status": "partial",
  "note": "PING, RST_STREAM, WINDOW_UPDATE and GOAWAY in full, with the exact accepted payloads. PRIORITY is refuted: encode announces a length of 0 and drops the exclusive bit, and longer payloads are accepted."
 },
 "C41": {
  "status": "partial",
  "note": "Exact behaviour of the padding check; refuted: the pad length octet and the padding stay in the payload and a pad length equal to the payload is accepted. Exact: the code agrees with RFC 9113 if and only if the pad length is 0 or larger than the payload."
 },
 "C57": {
  "status": "proved",
  "note": "In full, with the exact point of overflow (a panic in debug builds). Also shown: ids of 2^31 and more are handed out although they do not survive the wire (refuted variant beyond the statement)."
 },
 "C40": {
  "status": "partial",
  "note": "Frame sequence, END_HEADERS placement and decoding of the concatenated payloads proved for every connection history; refuted: END_STREAM goes to the last CONTINUATION frame instead of HEADERS, and Frame::parse refuses CONTINUATION frames."
 },
 "C42": {
  "status": "partial",
  "note": "Exact characterisation (iff) of the payloads for which Frame::parse panics (DATA on stream 0) or loops (HPACK decoder loop); everything else returns. The full property is refuted by those."
 },
 "C43": {
  "status": "proved",
  "note": "Acceptance is characterised exactly, with and without the PRIORITY flag."
 },
 "C55": {
  "status": "partial",
  "note": "Receiving side for every URL text; end to end for URLs with default port, no user and no query and no '%' in the path. Refuted for port, user and query, which Parts::request drops. C55_exact: no other URL is carried over."
 },
 "C64": {
  "status": "proved",
  "note": "For messages that fit one frame (5 * list size <= max_frame_size) and whose field names are distinct. Companion refutations: Parts of the frame are not written; of repeated fields only the last is delivered."
 },
 "C65": {
  "status": "partial",
  "note": "Kind for every frame, stream id except PRIORITY and GOAWAY, flags for DATA, HEADERS and PUSH_PROMISE; refuted for PRIORITY's stream id and PING's ACK. Exact reports for every kind of frame (C65_reports_partial)."
 },
 "C66": {
  "status": "partial",
  "note": "Bound max_frame_size + 4 * (largest field size) proved; the bound max_frame_size is refuted."
 },
 "C67": {
  "status": "partial",
  "note": "Wire form and the two stream ids proved; refuted: the receiver ignores the header block, and its table gets out of step with the sender's."
 },
 "C54": {
  "status": "proved",
  "note": "Over all histories of insert, remove, get_mut, clear and extend (with arguments built likewise)."
 },
 "C68": {
  "status": "proved",
  "note": "Exact component-wise description and algebraic laws for all URLs. Refuted readings: RFC 3986 resolution (credentials, path and query of the base survive an absolute URL of another host; '/' cannot be reached)."
 },
 "C69": {
  "status": "proved",
  "note": "The parsed text carries the scheme's default port where none was set (port_of); equality with an absent port is refuted."
 },
 "C70": {
  "status": "partial",
  "note": "First failure, last value and header map proved for all call sequences. Round trip with the restrictions of C03 and scheme http. Refuted: is_partial() is true after build; CR LF in the Host via an escaped domain; stale Host."
 },
 "C71": {
  "status": "proved",
  "note": "Names must be clash-free in the sense of C15 (the crate's name comparison is not an equivalence)."
 },
 "C72": {
  "status": "partial",
  "note": "Exact behaviour proved (word anywhere in the value); elements spelled as expected are recognised. Refuted: other letter case, words that only contain the option."
 },
 "C73": {
  "status": "partial",
  "note": "Equal when both succeed; literal results carry over except after '+' (and for isize::MIN). Refuted in general. For usize exact: both storages agree if and only if the text is not empty and no numeral after a plus sign. The exact condition for isize is C73_isize_exact."
 },
 "C74": {
  "status": "proved",
  "note": "All 32-bit codes."
 },
 "C75": {
  "status": "partial",
  "note": "Exact behaviour proved. Refuted: requests without body are rejected and those with one accepted; a Content-Length of 2^63 panics."
 },
 "C76": {
  "status": "partial",
  "note": "Proved for every request with legal fields and a target of visible characters, and for forwarding of parsed requests under the same condition on the path; refuted for paths with escaped line breaks."
 },
 "C77": {
  "status": "partial",
  "note": "First failure, last value, header map and presets proved. Round trip for codes with a reason phrase (C09)."
 },
 "C78": {
  "status": "partial",
  "note": "Equal for UTF-8 values whenever serialisation succeeds. Refuted: other values; codes without phrase are displayed but cannot be serialised. Exact: for a message that can be written the two texts agree if and only if all values are UTF-8."
 },
 "C79": {
  "status": "partial",
  "note": "Heads, bodies and the shared HPACK table proved; refuted: other extensions are dropped by the copy."
 },
 "C80": {
  "status": "partial",
  "note": "Proved for fields legal in HTTP/1; refuted: CR LF in an HPACK string becomes a field."
 },
 "C81": {
  "status": "proved",
  "note": "Read_message composes the head parser with hm_is_chunked, hm_body_len and parse_chunk_data as an application does."
 },
 "C82": {
  "status": "proved",
  "note": "Header lists fit into one frame (5 * size <= max frame size) and the two dynamic tables start in step, as in C31."
 },
 "C83": {
  "status": "proved",
  "note": "Both directions: delivery of what was sent, and an exact description of the octets that are accepted."
 },
 "C84": {
  "status": "partial",
  "note": "Proved for HTTP/1 and for Frame::encode; refuted: WebSocket write_to returns 0, Serialize for Frame writes nothing, a failing head leaves its beginning in the buffer (what exactly is proved)."
 },
 "C85": {
  "status": "partial",
  "note": "Proved for messages with every body type and for DATA that fits in one frame; refuted for larger DATA, whose payload is consumed up to the last piece."
 },
 "C86": {
  "status": "partial",
  "note": "Increments, names and the order laws are proved; refuted: ErrorCode::parse always gives 0, equal queue entries can carry different frames."
 },
 "C87": {
  "status": "partial",
  "note": "Exact effect of set_url and of sequences of it, delivery after the first call; refuted: a second URL leaves the old Host, :authority keeps its port, Zauthority counts as :authority."
 },
 "C88": {
  "status": "partial",
  "note": "Equality, hashing, all readings and all map operations and queries agree for the two storages, for every history; the body length agrees for plain numerals and is characterised exactly for each storage; refuted for +5, which is 5 as a literal and 0 as an owned value."
 },
 "C89": {
  "status": "partial",
  "note": "Getters and flags for every sequence of calls, the panicking calls exactly, SETTINGS and DATA as the peer sees them. Refuted: pseudo fields set on a HEADERS frame are never sent, a padded DATA frame loses an octet, an illegal window size is only noticed by the peer. For HEADERS the peer part is for requests that fit one frame."
 },
 "C90": {
  "status": "partial",
  "note": "Non-empty for every error of the HTTP/1, URL and chunk parsers and of the WebSocket writer, and pairwise different; exactly when for the WebSocket readers. Refuted for HTTP/2, whose errors all have the empty text, and for WebSocket protocol errors."
 },
 "C91": {
  "status": "partial",
  "note": "Proved for all numbers of threads, calls and schedules of the lock operations and stores: no panic, no poisoning, table invariants, every run equal to a run of whole critical sections, no deadlock, no endless run. Refuted for decode_with_cb whose callback uses an encoder on the same table: it runs while the read guard is held and the thread waits for itself."
 },
 "C92": {
  "status": "partial",
  "note": "Holds when the blocks are encoded one after another (any threads) and sent in that order, under the conditions of C31. Refuted when another thread's block comes in between: then no order of the blocks on the wire is read right."
 },
 "C93": {
  "status": "partial",
  "note": "Holds between two endpoints that take turns, under the conditions of C31; the two tables stay the same. Refuted when blocks cross, and with a peer that keeps one table for each direction as RFC 7541 demands."
 },
 "C94": {
  "status": "partial",
  "note": "Every class is characterised exactly, octet by octet. Refuted against the documentation of three: is_token accepts delimiters, is_uri_token accepts characters that are not in its list (braces, quote, backslash, backquote, bar), the octets left unescaped include = and @ but not ~. Outside 0..15 to_hex panics."
 },
 "C95": {
  "status": "partial",
  "note": "Methods: exact for all Unicode text; the nine names in any case for ASCII text; refuted beyond ASCII (a ligature st reads as ST, dotless i as I). Schemes by str::parse: exact; refuted, no known scheme is ever read since the text is upper-cased first. TryFrom, versions, predicates, comparison of a Url with text: proved exactly. Refuted that a text equals one URL only."
 },
 "C96": {
  "status": "partial",
  "note": "All sequences of calls and all conversions: proved. Refuted: from_parts and new_by_parts forget that a head was incomplete (exactly then from_parts(into_parts(r)) is not r)."
 },
 "C97": {
  "status": "partial",
  "note": "All but clear: proved for all sequences of calls. Refuted: clear (and so parsing into a used message) leaves the system_insert entries; == is not transitive and does not imply equal octets."
 },
 "C98": {
  "status": "proved",
  "note": "Accepted octets, frames and tables exactly, per frame and per connection. The grammar states where the reader is more liberal than RFC 9113 (padding kept, short PUSH_PROMISE, long PRIORITY, repeated and unknown pseudo headers)."
 },
 "C99": {
  "status": "proved",
  "note": "Octets exactly, refusal of long control messages, both conversions (the second as an equivalence)."
 },
 "C100": {
  "status": "proved",
  "note": "The names are compared with the crate's own phrases; the phrases with the registry in C61. Display, status line, pseudo header, comparisons and default."
 },
 "C101": {
  "status": "proved",
  "note": "Octets and receipt of frames made by constructors; PRIORITY frames are not written properly by the code (C39) and only the components read are stated here."
 },
 "C102": {
  "status": "proved",
  "note": "Equivalences for all four outcomes of reading one frame from the input (header, payload taken by its length, Frame::parse); the first two octet-level specifications with C98 cover every input without overlap. That input shorter than the announced payload gives Short is a property of the reading loop around Frame::parse, which the crate leaves to its user."
 },
 "C103": {
  "status": "proved",
  "note": "Equivalences for the errors of the four readers and for the panic of the chunk reader; with C02, C23 and C13 the specifications cover every input without overlap. The values of the fields in front of the defect are those of C02."
 },
 "C104": {
  "status": "partial",
  "note": "The errors of the readers and of the message builder are proved exact, complete and final. Unexpected end is proved completable except for the listed beginnings (non-final control octet, control frame with extended length, eight-octet length starting with six zero octets); for those it is refuted: no continuation is accepted."
 },
 "C105": {
  "status": "partial",
  "note": "The octets left are proved exact for every failed call of every reader named. Repeating the call is proved right for header blocks always, and for HTTP/1 heads while only blank lines and a part of the first word have come; after that it is refuted: the start of the head is gone, and a header value that comes later is read as a new request or status line. For unmasked WebSocket frames a repeated call is right exactly when nothing had come before (a masked one can come out right by chance)."
 },
 "C106": {
  "status": "partial",
  "note": "All the bounds are proved, and reached for Huffman strings, replacement characters and header blocks; what is kept of an accepted header list is within three times the limit. Refuted: the limit does not bound what is made, since the whole list is decoded before its size is looked at; with a table of 4096 octets each further octet of the block makes a field of 4064 octets. The size of Rust's own structures is not counted."
 },
 "C107": {
  "status": "partial",
  "note": "Equivalences: the writer gives exactly the outcome that the grammar of S_WriteAll.v names, for every object and every table. Refuted: the length field has only the low 24 bits of the length (a GOAWAY frame of 2^24 octets is written with length 0 and refused), PRIORITY is written with length 0 (C39), and data with frame size 0 is written for ever (C38). Header names are octet strings; map insertion of the pseudo fields of a promise is the one of C14."
 },
 "C108": {
  "status": "proved",
  "note": "Equivalences for request and response heads and for the four forms of targets against the grammar in S_Rfc9112.v. The _refuted theorems give conforming heads outside of the conditions: other methods, HTTP/1.2, OPTIONS *, '@' in a path, blanks behind a value, two fields of one list, IPv6 hosts, a missing reason. IP-literal is taken wider than RFC 3986 has it; user information is left out as RFC 9110 section 4.2.4 asks."
 },
 "C109": {
  "status": "proved",
  "note": "Equivalences for every accepted head. The _refuted theorems show that each deviation does occur; a value may hold any octets but CR, so a lone LF hides further fields from this reader that another one sees."
 },
 "C110": {
  "status": "proved",
  "note": "Equivalences against the frames of S_Rfc9113.v (section 6 and 8.3 of the RFC). PUSH_PROMISE and CONTINUATION are left out: the first is read without its block (C98), the second is never accepted (C110_types_refuted). Blocks are in the HPACK of RFC 7541 as far as the decoder knows it (C62). The _refuted theorems show the deviations: padding is kept, undefined flags and unknown types are refused, lax stream identifiers and lengths."
 },
 "C111": {
  "status": "proved",
  "note": "Equivalences against RFC 6455 sections 5 and 7.4 in S_Rfc6455.v, for the receiver that reads frame by frame (S_WsTalk.v: the crate has readers for frames and for lists of frames, the loop around them is the caller's). The _refuted theorems show that each of the four conditions is needed."
 },
 "C112": {
  "status": "proved",
  "note": "Equivalences against RFC 9112 section 7.1 in S_RfcBody.v, for the client's loop of S_Http1Api.v around parse_chunk_data (the crate leaves the loop to its caller). Sizes n with n+2 < 2^64. The _refuted theorems show bodies of the RFC that are not read, and accepted bodies that the RFC does not have."
 },
 "C113": {
  "status": "proved",
  "note": "Equivalences against RFC 9112 sections 6.3 and 7.1 in S_RfcMessage.v, for the receiver of C81 (S_Stream.v; the crate leaves reading the body to its caller). C113_smuggling_refuted: with Transfer-Encoding: Chunked the Content-Length is used and the body becomes a second request; C113_invalid_refuted: requests that have to be refused are read."
 },
 "C114": {
  "status": "proved",
  "note": "Equivalences against RFC 9112 section 6.3 in S_RfcReply.v (the crate leaves reading the body to its caller; the receiver is that of C81 with res_nobody in front). C114_not_modified_refuted: a 304 with Content-Length swallows octets of the next response; C114_left_over_refuted: the body of an answer to OPTIONS or of a refused CONNECT becomes a response that nobody sent; C114_close_refuted: bodies until close are not read; C114_get_refuted: is_nobody denies bodies of GET requests."
 },
 "C115": {
  "status": "proved",
  "note": "Equivalences against RFC 9113 sections 8.2 to 8.5 in S_RfcMeans.v. C115_at_refuted: a conforming request for http://good.com/a@evil.com goes to evil.com; C115_glued_refuted: a path that does not start with '/' becomes the end of the host; C115_hosts_refuted: two hosts; C115_malformed_refuted: eleven kinds of malformed lists that are taken for requests; C115_refused_refuted: conforming requests that are refused or misread; C115_version_refuted: every request says HTTP/1.1."
 },
 "C116": {
  "status": "proved",
  "note": "Equivalence against RFC 3986 in S_Rfc3986.v (IP literals wider than the RFC). C116_fragment_refuted: a fragment becomes part of the path, query or host; C116_accident: with an '@' in the fragment it may come out right; C116_unreadable_refuted: user without password, IPv6 hosts and empty ports are refused, HTTP in upper case is another scheme with port 0, http://h?8 goes to port 8, http://h/a@b goes to host b; C116_host_refuted: hosts that no URI has are parsed and displayed."
 },
 "C117": {
  "status": "proved",
  "note": "Equivalences against RFC 9112 in S_RfcSend.v, independent of the crate's own parsers. The _refuted theorems name the objects that are written and not conforming or not as meant: CONNECT always, every URL with a query, paths that need escapes, every message with Transfer-Encoding: chunked (the body is not chunked), HTTP/2 and HTTP/3 versions, bodies behind 204."
 },
 "C118": {
  "status": "proved",
  "note": "An equivalence for every frame kind against RFC 9113 and RFC 7541 in S_RfcFrames.v. HEADERS frames with the flags PADDED or PRIORITY given to the constructor and header blocks of 16 MiB and more are left out of the equivalence. The _refuted theorems name what is written and not conforming: every PRIORITY and PUSH_PROMISE frame, END_STREAM of a block of several frames, pseudo parts and priorities of HEADERS, header frames longer than the limit, and illegal numbers."
 },
 "C119": {
  "status": "proved",
  "note": "Equivalences against the RFC 6455 grammar of S_Rfc6455.v for arbitrary sequences of written objects, for OwnedMessage sequences and for Message values. The _refuted theorems name what is written and not conforming: texts with a status code, payloads that are not UTF-8, reserved bits, unfinished control frames, reserved opcodes, close codes that may not be sent, data after a close, wrong masking and lengths from 2^63 on."
 },
 "C120": {
  "status": "proved",
  "note": "Equivalences against the messages of RFC 9113 section 8.3 (S_RfcMeans.v) for the lists of fields, and for the octets under the conditions of C118. The _refuted theorems name what is sent and not conforming: URLs with a query, a user or another port, every request whose Host field the builder made, fields of the connection, CONNECT always, header maps given to encode_header, and fields whose names compare equal to those of pseudo header fields."
 },
 "C121": {
  "status": "proved",
  "note": "Equivalences against the grammar and meaning of S_Rfc3986.v. The _refuted theorems give Urls that show another URL: '?' in a path, '/' in a user (another host), a user without a password, an escape in a host; and those that show none: a port without a scheme, a path without '/'."
 },
 "C122": {
  "status": "proved",
  "note": "Equivalences, for messages that C113, C114 and C115 show to be read as meant. The _refuted theorems give messages that become something else on the way: one request that becomes two (chunked content, an escaped line end in the path, HTTP/2 content without a length), a proxy request for one host that is sent on for another, and CONNECT, always."
 },
 "C123": {
  "status": "proved",
  "note": "Equivalences, for messages that C113, C114 and C115 show to be read as meant. The _refuted theorems: every HTTP/2 request without a host field, every HTTP/1 request with a port in its Host field and every one with a field of the connection is sent on malformed, and a field called Zpath or Zauthority sends a request to another path or host."
 },
 "C124": {
  "status": "proved",
  "note": "Equivalences for frames that C110 shows to be read as meant, with the specification of what is sent of C118. HEADERS: names of lower case tokens without the circumflex. The _refuted theorems: no request and no response is sent on by writing the frame, PRIORITY never arrives, and a DATA frame with the flag PADDED becomes one with other data."
 },
 "C125": {
  "status": "proved",
  "note": "Equivalences; C111 gives what was received and C119 what is written. Messages of 2^64 octets and more are left out. The _refuted theorems: forbidden codes and data after a close are passed on, and two fragments of less than 2^63 octets each become one message that is too long."
 },
 "C126": {
  "status": "proved",
  "note": "Equivalences, decided from the parts of the URI that was received; C126_any for texts that are no URIs. The _refuted theorems give URIs whose host is another one after they have been parsed and shown: http://good/%40evil (for the crate), http://evil%2Fx:y@good/ (for other readers) and http://evil%2F.good/ (for both)."
 },
 "C127": {
  "status": "proved",
  "note": "C127_list and C127_names are equivalences for the fields; C127_marks says that marks are lost from every block that has one (C127_marks, C127_secret_refuted). Blocks without size updates, names of ASCII and strings below 2^26 octets."
 },
 "C128": {
  "status": "proved",
  "note": "C128_same is an equivalence; C128_any and C128_twice hold for all octets that are accepted. C128_same_refuted and C128_smuggling_refuted show what a relay loses and what a trailer field can do."
 },
 "C129": {
  "status": "proved",
  "note": "Items as in C82 (header lists that fit into one frame; tables as in C31). C129_arrives and C129_only: what comes out is what C82 gives for one connection, and only that; C129_frames_refuted for relays that write the frames themselves."
 },
 "C130": {
  "status": "proved",
  "note": "Messages as in C81. C130_exact is an equivalence for single requests other than CONNECT (CONNECT: C122_connect_refuted). C130_escapes_refuted, C130_query_refuted and C130_blank_refuted show what happens to other targets."
 },
 "C131": {
  "status": "proved",
  "note": "The receiver is that of C111 (control frames are messages, others are kept until FIN). C131_fragments_refuted and C131_reserved_refuted show what does not pass an intermediary that sends on messages."
 },
 "C132": {
  "status": "proved",
  "note": "Over HTTP/2 the gateway sends the pseudo header fields first (the list of C120) with names in lower case, as the HPACK encoder writes them; that the list crosses the connection unchanged is C129. C132_scheme_refuted and C132_alias_refuted show why http and true names of the framing fields are required."
 },
 "C133": {
  "status": "proved",
  "note": "remove_dot_segments and the resolution are written after RFC 3986 5.2.2-5.2.4 and checked on its examples (C133_dots, C133_resolved). Equivalences for the two kinds that can be read as meant; C133_network_refuted and C133_relative_refuted hold for all references of the other three kinds."
 },
 "C134": {
  "status": "proved",
  "note": "feed and all (S_Packets) are the receiver, a loop around the API; the HTTP/1 reader starts each attempt with a new object (C59: a used one gives the same). The HTTP/2 reader waits exactly while the answer would be Short (C134_short)."
 },
 "C135": {
  "status": "proved",
  "note": "carries (S_Net) says it for any reader; C81-C83 give what is written and read at once, C134 the rest. The hypothesis bytes_ok w says only that what was written consists of octets, which the model does not force on payloads. C135_talk: the WebSocket receiver of messages does not depend on packets for any octets."
 },
 "C136": {
  "status": "proved",
  "note": "The table of 81 rows is copied from the source with its lines (M_Names). That a constant finds foreign names is part of the statement (C136_taken exact; C136_hyphen_refuted for every constant with '-'). C136_received and C136_made show that the condition single of C136_variables holds."
 },
 "C137": {
  "status": "proved",
  "note": "The receivers are those of C134 and C135 (the library's parsers called again when more octets have arrived). The panics and the loop are findings (sections 5 of DESIGN.md; C17, C102); here it is proved that there are no others on a whole connection."
 },
 "C138": {
  "status": "proved",
  "note": "The receivers are those of C134 and C135. Both directions of each bound are proved (can_keep, iff). Allocator overhead and capacity growth of the buffer are not modelled."
 },
 "C139": {
  "status": "proved",
  "note": "The receivers are those of C134 and C135. What a text means compared with the RFCs (where this receiver and another one may divide differently) is the subject of C108 to C114."
 },
 "C140": {
  "status": "partial",
  "note": "Proved for tables below 66 times k octets when each field has at least k (HPACK counts 32 more than name and value), so below 2112 octets for all fields. Not so for the default table of 4096 octets: C140_default_table_refuted gives two streams that arrive in one order and end the connection in another, because an index that takes two octets is misread (C31)."
 }
}